(** How one matching iteration moves the quantities of Ledger.v. *)
From Verif Require Import Base BaseProofs Fees FeesSpec FeesProofs Critbit CritbitProofs CritbitSlab CritbitOps
  CritbitSpec CritbitRefine ListSum Queue QueueSpec QueueProofs Codec Market Matching MatchSteps MatchRefine
  MatchAsk MatchBid MatchRun Ledger.

(** ** Primitive moves *)
Definition ev_for (b : leaf) (s : side) (v : event_view) : Prop :=
  ev_owner v = l_owner b /\ ev_slot v = l_slot b /\ ev_id v = l_key b /\ ev_side v = s.
(** Order [b] is reduced to [n] and events [E] about it are queued; the last one is final exactly
    when the order is gone. *)
Record hit_events (b : leaf) (s : side) (n : Z) (E : list event_view) : Prop := mkHit {
  h_for : forall v, In v E -> ev_for b s v;
  h_live : n <> 0 -> forall v, In v E -> ev_final v = false;
  h_dead : n = 0 -> exists E0 f, E = E0 ++ [f] /\ ev_final f = true /\ forall v, In v E0 -> ev_final v = false
}.
Definition hit (A : astate) (s : side) (b : leaf) (n : Z) (E : list event_view) : astate :=
  addev (set_book A s (shrink b n (get_book A s))) E.

Lemma get_book_of A s : get_book A s = book_of A s.
Proof. destruct s; reflexivity. Qed.
Lemma slot_events_app k i A E : slot_events k i (addev A E) = slot_events k i A ++ filter (evb k i) E.
Proof. unfold slot_events, addev. cbn [a_evs]. apply filter_app. Qed.
Lemma book_addev A E s : book_of (addev A E) s = book_of A s.
Proof. destruct s; reflexivity. Qed.
Lemma evs_set_book A s bk : a_evs (set_book A s bk) = a_evs A.
Proof. destruct s; reflexivity. Qed.
Lemma slot_events_set A s bk k i : slot_events k i (set_book A s bk) = slot_events k i A.
Proof. unfold slot_events. rewrite evs_set_book. reflexivity. Qed.
Lemma book_set_same A s bk : book_of (set_book A s bk) s = bk.
Proof. destruct s; reflexivity. Qed.
Lemma book_set_other A s bk : book_of (set_book A s bk) (other s) = book_of A (other s).
Proof. destruct s; reflexivity. Qed.
Lemma side_cases (s s' : side) : s' = s \/ s' = other s.
Proof. destruct s, s'; auto. Qed.
Lemma other_other s : other (other s) = s.
Proof. destruct s; reflexivity. Qed.
Lemma other_neq s : other s <> s.
Proof. destruct s; discriminate. Qed.
Lemma at_slot_dec k i l : {at_slot k i l} + {~ at_slot k i l}.
Proof.
  unfold at_slot. destruct (Z.eq_dec (l_owner l) k), (Z.eq_dec (l_slot l) i); [left; auto|right; tauto..].
Qed.
Lemma evb_true k i v : evb k i v = true <-> ev_owner v = k /\ ev_slot v = i.
Proof. unfold evb. rewrite andb_true_iff, !Z.eqb_eq. reflexivity. Qed.
Lemma slot_event_In k i A v : In v (slot_events k i A) <-> In v (a_evs A) /\ ev_owner v = k /\ ev_slot v = i.
Proof. unfold slot_events. rewrite filter_In, evb_true. reflexivity. Qed.

Lemma filter_none {X} (f : X -> bool) l : (forall x, In x l -> f x = false) -> filter f l = [].
Proof. induction l; cbn; intros H; [reflexivity|]. rewrite H by (left; reflexivity). apply IHl. intros; apply H; right; assumption. Qed.
Lemma filter_all {X} (f : X -> bool) l : (forall x, In x l -> f x = true) -> filter f l = l.
Proof. induction l; cbn; intros H; [reflexivity|]. rewrite H by (left; reflexivity). f_equal. apply IHl. intros; apply H; right; assumption. Qed.

Lemma hit_filter_other k i b s n E : hit_events b s n E -> ~ at_slot k i b -> filter (evb k i) E = [].
Proof.
  intros H N. apply filter_none. intros v Hv. destruct (h_for _ _ _ _ H v Hv) as (E1 & E2 & _).
  destruct (evb k i v) eqn:EE; [|reflexivity]. apply evb_true in EE. destruct EE. exfalso. apply N. split; congruence.
Qed.
Lemma hit_filter_self k i b s n E : hit_events b s n E -> at_slot k i b -> filter (evb k i) E = E.
Proof.
  intros H [N1 N2]. apply filter_all. intros v Hv. destruct (h_for _ _ _ _ H v Hv) as (E1 & E2 & _).
  apply evb_true. split; congruence.
Qed.
Lemma hit_book_In A s b n E s' l : In l (book_of (hit A s b n E) s') ->
  (s' = s /\ n <> 0 /\ l = set_qty b n) \/ (In l (book_of A s') /\ (s' = s -> l_key l <> l_key b)).
Proof.
  unfold hit. rewrite book_addev. destruct (side_cases s s') as [->| ->].
  - rewrite book_set_same, get_book_of. intros H. apply shrink_In in H. tauto.
  - rewrite book_set_other. intros H. right. split; [assumption|]. intros K. exfalso. apply (other_neq s K).
Qed.
Lemma hit_In A s b n E s' l : In l (book_of A s') -> (s' = s -> l_key l <> l_key b) -> In l (book_of (hit A s b n E) s').
Proof.
  unfold hit. rewrite book_addev. destruct (side_cases s s') as [->| ->]; intros H K.
  - rewrite book_set_same, get_book_of. apply shrink_In_other; auto.
  - rewrite book_set_other. assumption.
Qed.
Lemma hit_In_self A s b n E : In b (book_of A s) -> n <> 0 -> In (set_qty b n) (book_of (hit A s b n E) s).
Proof.
  intros H K. unfold hit. rewrite book_addev, book_set_same, get_book_of. apply shrink_In_self; auto.
Qed.

Lemma hit_fresh A s b n E id s' : In b (book_of A s) -> lfind id (book_of A s') = None ->
  lfind id (book_of (hit A s b n E) s') = None.
Proof.
  intros Hb H. rewrite lfind_None in *. intros x Hx. apply hit_book_In in Hx.
  destruct Hx as [(-> & _ & ->)|[Hx _]]; [exact (H b Hb)|auto].
Qed.
Lemma slot_events_hit A s b n E k i : slot_events k i (hit A s b n E) = slot_events k i A ++ filter (evb k i) E.
Proof. unfold hit. rewrite slot_events_app, slot_events_set. reflexivity. Qed.
Lemma hit_free A s b n E k i : In b (book_of A s) -> hit_events b s n E -> slot_free k i A -> slot_free k i (hit A s b n E).
Proof.
  intros Hb HE [F1 F2]. split.
  - intros s' l Hl. apply hit_book_In in Hl. destruct Hl as [(-> & _ & ->)|[Hl _]]; [|eauto].
    exact (F1 s b Hb).
  - unfold hit. rewrite slot_events_app, slot_events_set, F2. apply (hit_filter_other _ _ _ _ _ _ HE).
    apply (F1 s b Hb).
Qed.
Lemma hit_flight A s b n E k i id sd : In b (book_of A s) -> hit_events b s n E ->
  slot_flight k i id sd A -> slot_flight k i id sd (hit A s b n E).
Proof.
  intros Hb HE [F1 F2]. split.
  - unfold hit. rewrite slot_events_app, slot_events_set, (hit_filter_other _ _ _ _ _ _ HE), app_nil_r; [assumption|].
    apply (F2 s b Hb).
  - intros s' l Hl. apply hit_book_In in Hl. destruct Hl as [(-> & _ & ->)|[Hl _]]; [|eauto].
    exact (F2 s b Hb).
Qed.
Lemma hit_busy A s b n E k i id sd : (forall s, sorted (book_of A s)) -> In b (book_of A s) -> hit_events b s n E ->
  slot_busy k i id sd A -> slot_busy k i id sd (hit A s b n E).
Proof.
  intros SO Hb HE (B1 & B2 & B3 & B4).
  destruct (at_slot_dec k i b) as [AT|NAT].
  - (* the order of this slot is hit *)
    assert (s = sd) as ->.
    { destruct (side_cases sd s) as [->| ->]; [reflexivity|]. exfalso. apply (B3 b Hb AT). }
    assert (KB : l_key b = id) by auto.
    unfold slot_busy. rewrite slot_events_hit, (hit_filter_self _ _ _ _ _ _ HE AT).
    split; [|split; [|split]].
    + intros v Hv. apply in_app_or in Hv. destruct Hv as [Hv|Hv]; [auto|].
      destruct (h_for _ _ _ _ HE v Hv) as (_ & _ & E1 & E2). split; congruence.
    + intros l Hl Al. apply hit_book_In in Hl. destruct Hl as [(_ & _ & ->)|[Hl _]]; auto.
    + intros l Hl Al. apply hit_book_In in Hl. destruct Hl as [(K & _)|[Hl _]]; [apply (other_neq sd K)|].
      apply (B3 l Hl Al).
    + destruct B4 as [[_ B4]|[B4 _]]; [|exfalso; apply (B4 b Hb AT)].
      destruct (Z.eq_dec n 0) as [->|NZ].
      * right. split.
        -- intros l Hl Al. apply hit_book_In in Hl. destruct Hl as [(_ & K & _)|[Hl K]]; [congruence|].
           apply (K eq_refl). rewrite (B2 l Hl Al). congruence.
        -- destruct (h_dead _ _ _ _ HE eq_refl) as (E0 & f & -> & Ff & FE).
           exists (slot_events k i A ++ E0), f. split; [rewrite app_assoc; reflexivity|]. split; [assumption|].
           intros v Hv. apply in_app_or in Hv. destruct Hv; auto.
      * left. split.
        -- exists (set_qty b n). split; [apply hit_In_self; assumption|]. exact AT.
        -- intros v Hv. apply in_app_or in Hv. destruct Hv; [auto|]. apply (h_live _ _ _ _ HE NZ). assumption.
  - unfold slot_busy. rewrite slot_events_hit, (hit_filter_other _ _ _ _ _ _ HE NAT), app_nil_r.
    split; [assumption|]. split; [|split].
    + intros l Hl Al. apply hit_book_In in Hl. destruct Hl as [(_ & _ & ->)|[Hl _]]; [exfalso; apply NAT; exact Al|auto].
    + intros l Hl Al. apply hit_book_In in Hl. destruct Hl as [(_ & _ & ->)|[Hl _]]; [apply NAT; exact Al|apply (B3 l Hl Al)].
    + destruct B4 as [[(l & Hl & Al) B4]|[B4 B5]].
      * left. split; [|assumption]. exists l. split; [|assumption]. apply hit_In; [assumption|].
        intros <- K. apply NAT. specialize (SO sd). rewrite (sorted_uniq _ _ _ SO Hb Hl (eq_sym K)). exact Al.
      * right. split; [|assumption]. intros l Hl Al. apply hit_book_In in Hl.
        destruct Hl as [(_ & _ & ->)|[Hl _]]; [apply NAT; exact Al|apply (B4 l Hl Al)].
Qed.

(** Own events and own order. *)
Lemma addev_free A E k i : (forall v, In v E -> evb k i v = false) -> slot_free k i A -> slot_free k i (addev A E).
Proof.
  intros H [F1 F2]. split; [intros s l; rewrite book_addev; apply F1|].
  rewrite slot_events_app, F2, filter_none by assumption. reflexivity.
Qed.
Lemma addev_busy A E k i id sd : (forall v, In v E -> evb k i v = false) -> slot_busy k i id sd A -> slot_busy k i id sd (addev A E).
Proof.
  intros H B. unfold slot_busy. rewrite slot_events_app, filter_none, app_nil_r by assumption.
  rewrite !book_addev. exact B.
Qed.
Lemma addev_flight A E k i id sd :
  (forall v, In v E -> ev_owner v = k /\ ev_slot v = i -> ev_id v = id /\ ev_side v = sd /\ ev_final v = false) ->
  slot_flight k i id sd A -> slot_flight k i id sd (addev A E).
Proof.
  intros H [F1 F2]. split.
  - rewrite slot_events_app. intros v Hv. apply in_app_or in Hv. destruct Hv as [Hv|Hv]; [auto|].
    apply filter_In in Hv. destruct Hv as [Hv EV]. apply evb_true in EV. auto.
  - intros s l. rewrite book_addev. apply F2.
Qed.
Lemma flight_final A v k i id sd : slot_flight k i id sd A ->
  ev_owner v = k -> ev_slot v = i -> ev_id v = id -> ev_side v = sd -> ev_final v = true ->
  slot_busy k i id sd (addev A [v]).
Proof.
  intros [F1 F2] V1 V2 V3 V4 V5. unfold slot_busy. rewrite slot_events_app, !book_addev. cbn [filter].
  replace (evb k i v) with true by (symmetry; apply evb_true; auto).
  split; [|split; [|split]].
  - intros x Hx. apply in_app_or in Hx. destruct Hx as [Hx|[<-|[]]]; [|auto]. destruct (F1 x Hx) as (? & ? & _). auto.
  - intros l Hl Al. exfalso. apply (F2 _ _ Hl Al).
  - intros l Hl. apply (F2 _ _ Hl).
  - right. split; [intros l Hl; apply (F2 _ _ Hl)|].
    exists (slot_events k i A), v. split; [reflexivity|]. split; [assumption|]. intros x Hx. apply (F1 x Hx).
Qed.
Definition ins (A : astate) (s : side) (l : leaf) : astate := set_book A s (lins l (get_book A s)).
Lemma slot_events_ins A s l k i : slot_events k i (ins A s l) = slot_events k i A.
Proof. unfold ins. apply slot_events_set. Qed.
Lemma ins_In A s l s' x : In x (book_of (ins A s l) s') -> (s' = s /\ x = l) \/ In x (book_of A s').
Proof.
  unfold ins. destruct (side_cases s s') as [->| ->].
  - rewrite book_set_same, get_book_of. intros H. apply lins_In in H. tauto.
  - rewrite book_set_other. auto.
Qed.
Lemma ins_In_old A s l s' x : lfind (l_key l) (book_of A s) = None -> In x (book_of A s') ->
  sorted (book_of A s) -> In x (book_of (ins A s l) s').
Proof.
  intros Hf Hx SO. unfold ins. destruct (side_cases s s') as [->| ->].
  - rewrite book_set_same, get_book_of. apply lins_In_iff; [assumption|]. right. split; [assumption|].
    rewrite lfind_None in Hf. auto.
  - rewrite book_set_other. auto.
Qed.
Lemma ins_free A s l k i : ~ at_slot k i l -> slot_free k i A -> slot_free k i (ins A s l).
Proof.
  intros N [F1 F2]. split; [|unfold ins; rewrite slot_events_set; assumption].
  intros s' x Hx. apply ins_In in Hx. destruct Hx as [[_ ->]|Hx]; [assumption|eauto].
Qed.
Lemma ins_busy A s l k i id sd : ~ at_slot k i l -> sorted (book_of A s) -> lfind (l_key l) (book_of A s) = None ->
  slot_busy k i id sd A -> slot_busy k i id sd (ins A s l).
Proof.
  intros N SO Hf (B1 & B2 & B3 & B4). unfold slot_busy. rewrite slot_events_ins.
  split; [assumption|]. split; [|split].
  - intros x Hx Ax. apply ins_In in Hx. destruct Hx as [[_ ->]|Hx]; [contradiction|auto].
  - intros x Hx Ax. apply ins_In in Hx. destruct Hx as [[_ ->]|Hx]; [contradiction|]. apply (B3 x Hx Ax).
  - destruct B4 as [[(x & Hx & Ax) B4]|[B4 B5]].
    + left. split; [|assumption]. exists x. split; [apply ins_In_old; assumption|assumption].
    + right. split; [|assumption]. intros x Hx Ax. apply ins_In in Hx. destruct Hx as [[_ ->]|Hx]; [contradiction|]. apply (B4 x Hx Ax).
Qed.
Lemma flight_ins A l k i sd : at_slot k i l -> sorted (book_of A sd) ->
  slot_flight k i (l_key l) sd A -> slot_busy k i (l_key l) sd (ins A sd l).
Proof.
  intros AT SO [F1 F2]. unfold slot_busy. rewrite slot_events_ins.
  split; [|split; [|split]].
  - intros v Hv. destruct (F1 v Hv) as (? & ? & _). auto.
  - intros x Hx Ax. apply ins_In in Hx. destruct Hx as [[_ ->]|Hx]; [reflexivity|]. exfalso. apply (F2 _ _ Hx Ax).
  - intros x Hx Ax. apply ins_In in Hx. destruct Hx as [[K _]|Hx]; [apply (other_neq _ K)|apply (F2 _ _ Hx Ax)].
  - left. split; [|intros v Hv; apply (F1 v Hv)].
    exists l. split; [|assumption]. unfold ins. rewrite book_set_same, get_book_of.
    apply lins_In_iff; [assumption|]. left. reflexivity.
Qed.

(** ** Matching as a sequence of moves *)
Section Order.
Variables (k i id : Z) (sd : side).

Definition own_ev (v : event_view) : Prop :=
  ev_owner v = k /\ ev_slot v = i /\ ev_id v = id /\ ev_side v = sd.

Inductive evo : astate -> astate -> Prop :=
| evo_refl A : evo A A
| evo_hit A s b n E A' : In b (book_of A s) -> 0 <= n < l_qty b -> hit_events b s n E ->
    evo (hit A s b n E) A' -> evo A A'
| evo_own A v A' : own_ev v -> ev_final v = false -> evo (addev A [v]) A' -> evo A A'.

Lemma evo_trans A B C : evo A B -> evo B C -> evo A C.
Proof. induction 1; intros; [assumption|eapply evo_hit; eauto|eapply evo_own; eauto]. Qed.

Definition both_sorted (A : astate) : Prop := forall s, sorted (book_of A s).
Lemma hit_sorted A s b n E : both_sorted A -> both_sorted (hit A s b n E).
Proof.
  intros H s'. unfold hit. rewrite book_addev. destruct (side_cases s s') as [->| ->].
  - rewrite book_set_same, get_book_of. apply shrink_sorted, H.
  - rewrite book_set_other. apply H.
Qed.
Lemma evo_sorted A A' : evo A A' -> both_sorted A -> both_sorted A'.
Proof.
  induction 1; intros H'; [assumption| |]; apply IHevo.
  - apply hit_sorted. assumption.
  - intros s. rewrite book_addev. apply H'.
Qed.
Lemma own_not v k' i' : own_ev v -> (k', i') <> (k, i) -> evb k' i' v = false.
Proof.
  intros (O1 & O2 & _) N. destruct (evb k' i' v) eqn:E; [|reflexivity]. apply evb_true in E. exfalso.
  destruct E. apply N. congruence.
Qed.
Lemma evo_free k' i' A A' : evo A A' -> (k', i') <> (k, i) -> slot_free k' i' A -> slot_free k' i' A'.
Proof.
  induction 1; intros N F; [assumption| |]; apply IHevo; auto.
  - apply hit_free; assumption.
  - apply addev_free; [|assumption]. intros x [<-|[]]. apply own_not; assumption.
Qed.
Lemma evo_busy k' i' id' sd' A A' : evo A A' -> both_sorted A -> (k', i') <> (k, i) ->
  slot_busy k' i' id' sd' A -> slot_busy k' i' id' sd' A'.
Proof.
  induction 1; intros S N F; [assumption| |]; apply IHevo; auto.
  - apply hit_sorted; assumption.
  - apply hit_busy; assumption.
  - apply addev_busy; [|assumption]. intros x [<-|[]]. apply own_not; assumption.
Qed.
Lemma evo_flight A A' : evo A A' -> slot_flight k i id sd A -> slot_flight k i id sd A'.
Proof.
  induction 1; intros F; [assumption| |]; apply IHevo; auto.
  - apply hit_flight; assumption.
  - apply addev_flight; [|assumption]. intros x [<-|[]] _. destruct H as (_ & _ & ? & ?). auto.
Qed.
Lemma free_flight A : slot_free k i A -> slot_flight k i id sd A.
Proof. intros [F1 F2]. split; [rewrite F2; intros v []|assumption]. Qed.

(** Every order afterwards is what is left of an order that was there. *)
Definition descends (A A' : astate) : Prop :=
  forall s l, In l (book_of A' s) -> exists l0, In l0 (book_of A s) /\ l_key l0 = l_key l /\ l_owner l0 = l_owner l /\
    l_slot l0 = l_slot l /\ l_tier l0 = l_tier l /\ l_cid l0 = l_cid l /\ l_qty l <= l_qty l0.
Lemma evo_descends A A' : evo A A' -> descends A A'.
Proof.
  induction 1 as [A|A s b n E A' Hb Hn HE _ IH|A v A' Hv Hf _ IH]; intros s' l Hl.
  - exists l. repeat split; auto; lia.
  - destruct (IH s' l Hl) as (l0 & H0 & E1 & E2 & E3 & E4 & E5 & E6).
    apply hit_book_In in H0. destruct H0 as [(-> & _ & ->)|[H0 _]].
    + exists b. cbn in *. repeat split; auto; lia.
    + exists l0. repeat split; auto.
  - destruct (IH s' l Hl) as (l0 & H0 & E1). rewrite book_addev in H0. exists l0. auto.
Qed.

(** How the order ends. *)
Inductive fin : astate -> astate -> Prop :=
| fin_out A v : own_ev v -> ev_final v = true -> fin A (addev A [v])
| fin_ins A l : at_slot k i l -> l_key l = id -> lfind id (book_of A sd) = None -> fin A (ins A sd l).
Lemma fin_own A A' : fin A A' -> both_sorted A -> slot_flight k i id sd A -> slot_busy k i id sd A'.
Proof.
  destruct 1 as [A v (O1 & O2 & O3 & O4) F|A l AT K L]; intros S FL.
  - apply flight_final; assumption.
  - rewrite <- K in *. apply flight_ins; auto.
Qed.
Lemma fin_free k' i' A A' : fin A A' -> (k', i') <> (k, i) -> slot_free k' i' A -> slot_free k' i' A'.
Proof.
  destruct 1 as [A v O F|A l AT K L]; intros N FR.
  - apply addev_free; [|assumption]. intros x [<-|[]]. apply own_not; assumption.
  - apply ins_free; [|assumption]. intros [A1 A2]. destruct AT. apply N. congruence.
Qed.
Lemma fin_busy k' i' id' sd' A A' : fin A A' -> both_sorted A -> (k', i') <> (k, i) ->
  slot_busy k' i' id' sd' A -> slot_busy k' i' id' sd' A'.
Proof.
  destruct 1 as [A v O F|A l AT K L]; intros S N FR.
  - apply addev_busy; [|assumption]. intros x [<-|[]]. apply own_not; assumption.
  - apply ins_busy; auto; [|congruence]. intros [A1 A2]. destruct AT. apply N. congruence.
Qed.
End Order.

Lemma hit_out A s b n u st E :
  In b (book_of A s) -> (n = 0 <-> st = 0) -> E = [out_of s true u st b] -> hit_events b s n E.
Proof.
  intros _ HN ->. constructor.
  - intros v [<-|[]]. repeat split.
  - intros NZ v [<-|[]]. cbn. apply Z.eqb_neq. tauto.
  - intros NZ. exists [], (out_of s true u st b). split; [reflexivity|]. split; [|intros v []]. cbn. apply Z.eqb_eq. tauto.
Qed.
Lemma hit_fill s b n mk a c f t E :
  E = EvFill s mk a c f (l_key b) (l_owner b) (l_slot b) t (l_cid b) :: (if n =? 0 then [out_of s true 0 0 b] else []) ->
  hit_events b s n E.
Proof.
  intros ->. constructor.
  - intros v [<-|Hv]; [repeat split|]. destruct (n =? 0); [|destruct Hv]. destruct Hv as [<-|[]]. repeat split.
  - intros NZ v. replace (n =? 0) with false by lia. intros [<-|[]]. reflexivity.
  - intros ->. cbn [Z.eqb]. exists [EvFill s mk a c f (l_key b) (l_owner b) (l_slot b) t (l_cid b)], (out_of s true 0 0 b).
    split; [reflexivity|]. split; [reflexivity|]. intros v [<-|[]]. reflexivity.
Qed.

Lemma mul3_nz a b c : 0 < a -> 0 < b -> 0 < c -> (a * b * c =? 0) = false.
Proof. intros. apply Z.eqb_neq. pose proof (Z.mul_pos_pos (a * b) c). pose proof (Z.mul_pos_pos a b). lia. Qed.

Section Steps.
Variables (cl pl capb capa : Z) (p : order_params).
Let lim := price_of_id (op_order_id p).
Let k := op_owner p. Let i := op_slot p. Let id := op_order_id p.
Hypothesis (Hcl : 0 < cl) (Hpl : 0 < pl).

Definition step_end (sd : side) (A A' : astate) : Prop :=
  exists A1, evo k i id sd A A1 /\ (if is_send_take p then A' = A1 else fin k i id sd A1 A').

Lemma my_out_own sd u st : own_ev k i id sd (my_out p sd u st).
Proof. repeat split. Qed.
Lemma addev_eq A E : mkA (a_bids A) (a_asks A) (a_evs A ++ E) = addev A E.
Proof. reflexivity. Qed.

Lemma ask_step_evo po A pr q A' pr' fee rq :
  books_ok cl pl A -> ask_wf cl pl p A pr q ->
  ask_step cl pl capa p lim po A pr q A' pr' fee rq ->
  match rq with Some _ => evo k i id Ask A A' | None => step_end Ask A A' end.
Proof.
  intros ([FB FA] & SB & SA) W H. destruct W as [_ Wq Wqc Wlim Wid Wfr Wst _ _ _ _ _].
  inversion H; subst; name_step.
  - exists A. split; [constructor|]. rewrite H2. apply (fin_ins k i id Ask A (my_leaf p q)); repeat split; assumption.
  - match goal with E : first_leaf true _ = Some _ |- _ => pose proof (first_leaf_In _ _ _ E) as Hw end.
    exists (hit A Ask w 0 [out_of Ask true (l_qty w * cl) 0 w]). split.
    + eapply evo_hit with (s := Ask); [exact Hw| | |apply evo_refl].
      * destruct (FA w Hw). lia.
      * apply (hit_out A Ask w 0 (l_qty w * cl) 0); [exact Hw|tauto|reflexivity].
    + rewrite H2. apply (fin_ins k i id Ask (hit A Ask w 0 [out_of Ask true (l_qty w * cl) 0 w]) (my_leaf p q)); [split; reflexivity|reflexivity|].
      apply hit_fresh; assumption.
  - exists A. split; [constructor|]. unfold vis. destruct (is_send_take p).
    + rewrite app_nil_r. destruct A; reflexivity.
    + apply (fin_out k i id Ask A); [apply my_out_own|reflexivity].
  - pose proof (best_bid_In _ _ HBest) as Hb. destruct (FB b Hb) as (F1 & F2 & _).
    destruct (self_qty_bounds _ _ _ _ _ HSelf) as [B1 B2]; [lia|].
    assert (ST : is_send_take p = false).
    { destruct (is_send_take p); [|reflexivity]. destruct (Wst eq_refl) as [_ E]. unfold self_qty in HSelf. rewrite E in HSelf. discriminate. }
    set (E1 := [out_of Bid true (cprov * l_price b * pl) ((l_qty b - cprov) * l_price b * pl) b]).
    assert (EV : evo k i id Ask A (hit A Bid b (l_qty b - cprov) E1)).
    { eapply evo_hit with (s := Bid); [exact Hb| | |apply evo_refl]; [lia|].
      apply (hit_out A Bid b _ (cprov * l_price b * pl) ((l_qty b - cprov) * l_price b * pl)); [exact Hb| |reflexivity].
      split; [intros ->; reflexivity|]. intros E. apply Z.mul_eq_0 in E. destruct E as [E|E]; [|lia]. apply Z.mul_eq_0 in E. lia. }
    assert (EQ : mkA (shrink b (l_qty b - cprov) (a_bids A)) (a_asks A)
           (a_evs A ++ [out_of Bid true (cprov * l_price b * pl) ((l_qty b - cprov) * l_price b * pl) b;
                        my_out p Ask (ctake * cl) (q - ctake)]) =
        addev (hit A Bid b (l_qty b - cprov) E1) [my_out p Ask (ctake * cl) (q - ctake)]).
    { unfold hit, addev, E1. cbn. rewrite <- app_assoc. reflexivity. }
    rewrite EQ. destruct (q - ctake =? 0) eqn:EZ.
    + exists (hit A Bid b (l_qty b - cprov) E1). split; [exact EV|]. rewrite ST.
      apply fin_out; [apply my_out_own|exact EZ].
    + eapply evo_trans; [exact EV|]. eapply evo_own; [apply my_out_own|exact EZ|apply evo_refl].
  - pose proof (best_bid_In _ _ HBest) as Hb. destruct (FB b Hb) as (F1 & F2 & _).
    set (t := Z.min (l_qty b) q) in *. assert (T : 0 < t <= l_qty b /\ t <= q) by (unfold t; lia). clearbody t.
    set (E1 := EvFill Bid true (t * l_price b * pl) (w64 (t * cl)) 0 (l_key b) (l_owner b) (l_slot b) (leaf_tier b) (l_cid b)
               :: (if l_qty b - t =? 0 then [out_of Bid true 0 0 b] else [])).
    set (v2 := EvFill Ask false (t * cl) (t * l_price b * pl - taker_fee (op_tier p) (t * l_price b * pl))
                 (taker_fee (op_tier p) (t * l_price b * pl)) (op_order_id p) (op_owner p) (op_slot p) (op_tier p) (op_cid p)).
    assert (EV : evo k i id Ask A (hit A Bid b (l_qty b - t) E1)).
    { eapply evo_hit with (s := Bid); [exact Hb| | |apply evo_refl]; [lia|]. eapply hit_fill. reflexivity. }
    match goal with |- match _ with Some _ => evo _ _ _ _ _ ?X | None => _ end => assert (EQ : X =
       addev (hit A Bid b (l_qty b - t) E1) (vis p (v2 :: (if q - t =? 0 then [my_out p Ask 0 0] else [])))) end.
    { unfold hit, addev. cbn [set_book a_bids a_asks a_evs get_book]. rewrite <- app_assoc. reflexivity. }
    rewrite EQ. clear EQ. unfold vis, step_end. destruct (is_send_take p) eqn:ST.
    + rewrite addev_nil. destruct (q - t =? 0); [eauto|exact EV].
    + destruct (q - t =? 0) eqn:EZ.
      * exists (addev (hit A Bid b (l_qty b - t) E1) [v2]). split.
        -- eapply evo_trans; [exact EV|]. eapply evo_own with (v := v2); [repeat split|reflexivity|apply evo_refl].
        -- change (v2 :: [my_out p Ask 0 0]) with ([v2] ++ [my_out p Ask 0 0]). rewrite <- addev_addev.
           apply fin_out; [apply my_out_own|reflexivity].
      * eapply evo_trans; [exact EV|]. eapply evo_own with (v := v2); [repeat split|reflexivity|apply evo_refl].
Qed.

Lemma bid_step_evo po A pr q L A' pr' fee rq :
  books_ok cl pl A -> bid_wf cl pl p A pr q L ->
  (is_send_take p = true -> op_st p = AbortTransaction) ->
  bid_step cl pl capb p lim po A pr q L A' pr' fee rq ->
  match rq with Some _ => evo k i id Bid A A' | None => step_end Bid A A' end.
Proof.
  intros ([FB FA] & SB & SA) W WA H. destruct W as [_ Wq WL Wlim Wid Wfr Wst _ _ _ _ _]. fold lim in Wlim.
  inversion H; subst; name_step.
  - assert (ST : is_send_take p = false) by (destruct (is_send_take p); [rewrite Wst in *; [discriminate|reflexivity]|reflexivity]).
    match goal with HP : 0 < bid_post_qty _ _ _ _ |- _ => rename HP into HPos end.
    set (n := bid_post_qty pl lim q L) in *.
    exists (addev A [my_out p Bid (L - n * lim * pl) (n * lim * pl)]). split.
    + eapply evo_own; [apply my_out_own| |apply evo_refl]. cbn. apply mul3_nz; assumption.
    + rewrite ST. apply (fin_ins k i id Bid (addev A [my_out p Bid (L - n * lim * pl) (n * lim * pl)]) (my_leaf p n)); [split; reflexivity|reflexivity|]. exact Wfr.
  - assert (ST : is_send_take p = false) by (destruct (is_send_take p); [rewrite Wst in *; [discriminate|reflexivity]|reflexivity]).
    match goal with E : first_leaf false _ = Some _ |- _ => pose proof (first_leaf_In _ _ _ E) as Hw end.
    match goal with HP : 0 < bid_post_qty _ _ _ _ |- _ => rename HP into HPos end.
    set (n := bid_post_qty pl lim q L) in *.
    set (v1 := my_out p Bid (L - n * lim * pl) (n * lim * pl)).
    set (v2 := out_of Bid true (l_qty w * l_price w * pl) 0 w).
    exists (hit (addev A [v1]) Bid w 0 [v2]). split.
    + eapply evo_own with (v := v1); [apply my_out_own| |].
      * cbn. apply mul3_nz; assumption.
      * eapply evo_hit with (s := Bid); [rewrite book_addev; exact Hw| | |apply evo_refl].
        -- destruct (FB w Hw). lia.
        -- apply (hit_out A Bid w 0 (l_qty w * l_price w * pl) 0); [exact Hw|tauto|reflexivity].
    + rewrite ST.
      replace (mkA (lins (my_leaf p n) (ldel (l_key w) (a_bids A))) (a_asks A) (a_evs A ++ [v1; v2]))
        with (ins (hit (addev A [v1]) Bid w 0 [v2]) Bid (my_leaf p n)).
      * apply (fin_ins k i id Bid _ (my_leaf p n)); [split; reflexivity|reflexivity|].
        apply hit_fresh; assumption.
      * unfold ins, hit, addev, shrink. cbn. rewrite <- app_assoc. reflexivity.
  - exists A. split; [constructor|]. unfold vis. destruct (is_send_take p).
    + rewrite app_nil_r. destruct A; reflexivity.
    + apply (fin_out k i id Bid A); [apply my_out_own|reflexivity].
  - pose proof (best_ask_In _ _ HBest) as Hb. destruct (FA b Hb) as (F1 & F2 & _).
    destruct (self_qty_bounds _ _ _ _ _ HSelf) as [B1 B2]; [lia|].
    assert (ST : is_send_take p = false).
    { destruct (is_send_take p); [|reflexivity]. unfold self_qty in HSelf. rewrite (WA eq_refl) in HSelf. discriminate. }
    set (E1 := [out_of Ask true (cprov * cl) ((l_qty b - cprov) * cl) b]).
    assert (EV : evo k i id Bid A (hit A Ask b (l_qty b - cprov) E1)).
    { eapply evo_hit with (s := Ask); [exact Hb| | |apply evo_refl]; [lia|].
      apply (hit_out A Ask b _ (cprov * cl) ((l_qty b - cprov) * cl)); [exact Hb| |reflexivity].
      split; [intros ->; reflexivity|]. intros E. apply Z.mul_eq_0 in E. lia. }
    match goal with |- match _ with Some _ => evo _ _ _ _ _ ?X | None => _ end => assert (EQ : X =
       addev (hit A Ask b (l_qty b - cprov) E1) [my_out p Bid unl still]) end.
    { unfold hit, addev, E1. cbn. rewrite <- app_assoc. reflexivity. }
    rewrite EQ. clear EQ.
    destruct ((q - ctake =? 0) || (L - ctake * l_price b * pl =? 0)) eqn:EZ; injection HUnl as -> ->.
    + exists (hit A Ask b (l_qty b - cprov) E1). split; [exact EV|]. rewrite ST.
      apply fin_out; [apply my_out_own|reflexivity].
    + eapply evo_trans; [exact EV|]. apply orb_false_iff in EZ. eapply evo_own; [apply my_out_own|apply EZ|apply evo_refl].
  - pose proof (best_ask_In _ _ HBest) as Hb. destruct (FA b Hb) as (F1 & F2 & _).
    set (t := Z.min (Z.min (l_qty b) q) (bid_budget pl p L / l_price b)) in *.
    assert (T : t <= l_qty b /\ t <= q) by (unfold t; lia). clearbody t.
    set (E1 := EvFill Ask true (t * cl) (t * l_price b * pl) 0 (l_key b) (l_owner b) (l_slot b) (leaf_tier b) (l_cid b)
               :: (if l_qty b - t =? 0 then [out_of Ask true 0 0 b] else [])).
    set (fe := taker_fee (op_tier p) (t * l_price b * pl)) in *.
    set (v2 := EvFill Bid false (t * l_price b * pl + fe) (t * cl) fe (op_order_id p) (op_owner p) (op_slot p) (op_tier p) (op_cid p)).
    set (rest := L - t * l_price b * pl - fe) in *.
    assert (EV : evo k i id Bid A (hit A Ask b (l_qty b - t) E1)).
    { eapply evo_hit with (s := Ask); [exact Hb| | |apply evo_refl]; [lia|]. eapply hit_fill. reflexivity. }
    match goal with |- match _ with Some _ => evo _ _ _ _ _ ?X | None => _ end => assert (EQ : X =
       addev (hit A Ask b (l_qty b - t) E1) (vis p (v2 :: (if (q - t =? 0) || (rest =? 0) then [my_out p Bid rest 0] else [])))) end.
    { unfold hit, addev. cbn [set_book a_bids a_asks a_evs get_book]. rewrite <- app_assoc. reflexivity. }
    rewrite EQ. clear EQ. unfold vis, step_end. destruct (is_send_take p) eqn:ST.
    + rewrite addev_nil. destruct ((q - t =? 0) || (rest =? 0)); [eauto|exact EV].
    + destruct ((q - t =? 0) || (rest =? 0)) eqn:EZ.
      * exists (addev (hit A Ask b (l_qty b - t) E1) [v2]). split.
        -- eapply evo_trans; [exact EV|]. eapply evo_own with (v := v2); [repeat split|reflexivity|apply evo_refl].
        -- change (v2 :: [my_out p Bid rest 0]) with ([v2] ++ [my_out p Bid rest 0]). rewrite <- addev_addev.
           apply fin_out; [apply my_out_own|reflexivity].
      * eapply evo_trans; [exact EV|]. eapply evo_own with (v := v2); [repeat split|reflexivity|apply evo_refl].
Qed.
End Steps.
