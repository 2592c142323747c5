(** Event consumption keeps the invariant of the world; what it does to the accounts. *)
From Coq Require Import Permutation.
From Verif Require Import Base BaseProofs Fees ListSum Queue QueueProofs Codec CodecProofs Critbit CritbitSlab Market Matching
  MatchSteps MatchRefine MatchAsk MatchBid MatchRun MatchSpec Ledger LedgerSteps LedgerRun MatchReport MatchOrder MatchFacts Slots Core CoreInv CoreNew CoreCancel CoreConsume CoreSettle CoreFrame Instr InstrProofs
  Store Process StoreProofs World WorldInv WorldLoad WorldRun WorldStep.

(** ** The binary search *)
Lemma bsearch_sound f ks x : forall l r, bsearch f ks x l r = true -> In x ks.
Proof.
  induction f as [|f IH]; intros l r H; cbn [bsearch] in H; [discriminate|]. destruct (l <? r); [|discriminate]. cbv zeta in H.
  destruct (znth ks (l + (r - l) / 2)) as [k|] eqn:E; [|discriminate]. destruct (Z.ltb_spec k x); [eauto|]. destruct (Z.ltb_spec x k); [eauto|].
  assert (k = x) by lia. subst k. eapply znth_In. eassumption.
Qed.
Lemma binary_search_sound ks x : binary_search ks x = true -> In x ks.
Proof. apply bsearch_sound. Qed.
Definition increasing (ks : list Z) : Prop := forall i j a b, znth ks i = Some a -> znth ks j = Some b -> i < j -> a < b.
Lemma bsearch_complete ks x p : increasing ks -> znth ks p = Some x -> forall f l r, 0 <= l -> l <= p < r -> r <= zlen ks -> r - l < Z.of_nat f -> bsearch f ks x l r = true.
Proof.
  intros INC HP. induction f as [|f IH]; intros l r L0 LR R F; [lia|]. cbn [bsearch]. replace (l <? r) with true by lia. cbv zeta.
  assert (l <= l + (r - l) / 2 < r) by (pose proof (Z.div_pos (r - l) 2); pose proof (Z.div_lt (r - l) 2); lia). set (mid := l + (r - l) / 2) in *.
  destruct (znth_lt ks mid) as [k E]; [lia|]. rewrite E. destruct (Z.ltb_spec k x).
  - apply IH; try lia. split; [|lia]. destruct (Z.lt_trichotomy mid p) as [?|[EQ|G]]; [lia|subst mid; rewrite <- EQ in HP; rewrite E in HP; injection HP as ->; lia|].
    pose proof (INC p mid x k HP E G). lia.
  - destruct (Z.ltb_spec x k); [|reflexivity]. apply IH; try lia. split; [lia|].
    destruct (Z.lt_trichotomy mid p) as [G|[EQ|?]]; [|subst mid; rewrite <- EQ in HP; rewrite E in HP; injection HP as ->; lia|lia].
    pose proof (INC mid p k x E HP G). lia.
Qed.
Lemma binary_search_complete ks x : increasing ks -> In x ks -> binary_search ks x = true.
Proof.
  intros INC H. apply In_nth_error in H. destruct H as [n H]. assert (N : (n < length ks)%nat) by (apply nth_error_Some; congruence).
  assert (HP : znth ks (Z.of_nat n) = Some x) by (unfold znth; replace (Z.of_nat n <? 0) with false by lia; rewrite Nat2Z.id; exact H).
  unfold binary_search. eapply bsearch_complete; try eassumption; unfold zlen; lia.
Qed.

Section Consume.
Variable e : env.
Hypothesis EO : env_ok e.
Notation D := (dexd e).
Let NS : e_prog e <> spl_id := eo_spl e EO.
Variables (k : Z) (m : market).
Let eqa := m_event_q m.
(** The store with the queue written back. *)
Definition at_q (s : store) (q : queue event) : store := put_data s eqa (DEventQ q).
Definition qfits (q : queue event) : Prop :=
  m_coin_deposits m + pending_paid ev_paid_coin q < B64 /\ m_pc_deposits m + pending_paid ev_paid_pc q < B64.
Record mid (s : store) (q : queue event) : Prop := mkMid {
  md_mkt : D s k = Some (DMarket m); md_q : exists q0, D s eqa = Some (DEventQ q0);
  md_inv : winv e (at_q s q); md_fit : proper m -> qfits q }.

Lemma view_owner ev v : event_as_view ev = Ok v -> ev_owner v = e_owner ev.
Proof.
  unfold event_as_view. intros H. apply rbind_ok in H. destruct H as (? & _ & H). destruct (has (e_flags ev) EF_Fill).
  - apply rbind_ok in H. destruct H as (? & _ & H). apply rbind_ok in H. destruct H as (? & _ & H). injection H as <-. reflexivity.
  - apply rbind_ok in H. destruct H as (? & _ & H). injection H as <-. reflexivity.
Qed.
Lemma at_q_D s q y : (exists q0, D s eqa = Some (DEventQ q0)) -> D (at_q s q) y = if y =? eqa then Some (DEventQ q) else D s y.
Proof. intros (q0 & H). exact (dexd_put_owned e s eqa _ y _ H). Qed.
Lemma at_q_quiet s q : (exists q0, D s eqa = Some (DEventQ q0)) -> quiet s (at_q s q).
Proof. intros (q0 & H). eapply quiet_put; [exact EO|exact H]. Qed.
Lemma load_orders_live s q x oo : mid s q -> load_orders e s m x None None None = Ok oo -> live (D (at_q s q)) k x oo /\ live (D s) k x oo /\ x <> eqa /\ x <> k.
Proof.
  intros [MM MQ MI MF] H. pose proof MQ as (q0 & Q0). apply dexd_owned in Q0.
  assert (N : x <> eqa). { intros ->. unfold load_orders in H. rewrite (proj2 Q0) in H. apply rbind_ok in H. destruct H as (? & _ & H). discriminate. }
  assert (N2 : x <> k). { intros ->. unfold load_orders in H. apply dexd_owned in MM. rewrite (proj2 MM) in H. apply rbind_ok in H. destruct H as (? & _ & H). discriminate. }
  assert (E : sget (at_q s q) x = sget s x) by (unfold at_q; rewrite sget_put; replace (x =? eqa) with false by lia; reflexivity).
  assert (H' : load_orders e (at_q s q) m x None None None = Ok oo) by (unfold load_orders in *; rewrite E; exact H).
  assert (NK : k <> eqa) by (intros EK; rewrite EK in MM; destruct Q0 as [Q1 Q2]; apply dexd_owned in MM; destruct MM; congruence).
  assert (HM : D (at_q s q) k = Some (DMarket m)) by (rewrite at_q_D by assumption; replace (k =? eqa) with false by lia; exact MM).
  destruct (load_orders_ok e _ _ _ _ _ _ _ _ (wi_str _ _ MI) HM H') as [[LV|(_ & _ & _ & ? & ? & F & _)] _]; [|discriminate].
  split; [assumption|]. split; [|auto]. destruct LV as (L1 & L2). split; [|exact L2]. rewrite at_q_D in L1 by assumption. replace (x =? eqa) with false in L1 by lia. exact L1.
Qed.
Lemma pending_map f A q : q_list q = map event_new (a_evs A) -> pending_paid f q = zsum f (a_evs A).
Proof.
  intros E. unfold pending_paid. rewrite E. clear E. induction (a_evs A) as [|v r IH]; [reflexivity|]. cbn [map zsum]. rewrite event_roundtrip, IH. reflexivity.
Qed.
(** One event. *)
Lemma consume_one s q ev v oo oo' q' z : mid s q -> peek_front q = Ok (Some ev) -> event_as_view ev = Ok v ->
  load_orders e s m (e_owner ev) None None None = Ok oo -> consume_event oo v = Ok oo' -> pop_front q = Ok (Some (q', z)) ->
  mid (put_data s (e_owner ev) (DOO oo')) q' /\ live (D s) k (e_owner ev) oo /\ (proper m -> applied oo oo' v /\ q_list q = event_new v :: q_list q').
Proof.
  intros MD PK VW LO CE PO. destruct (load_orders_live _ _ _ _ MD LO) as (LV & LS & N1 & N2). set (x := e_owner ev) in *. pose proof MD as [MM MQ MI MF].
  pose proof (consume_event_frame _ _ _ CE) as (I1 & I2 & I3). pose proof LS as (L1 & L2 & L3). pose proof MQ as (q0 & Q0).
  set (s1 := put_data s x (DOO oo')). assert (D1 : forall y, D s1 y = if y =? x then Some (DOO oo') else D s y) by (intros; eapply dexd_put_owned; eassumption).
  assert (NK : k <> eqa) by (intros EK; rewrite EK in MM; congruence).
  assert (Q1 : exists q1, D s1 eqa = Some (DEventQ q1)) by (exists q0; rewrite D1; replace (eqa =? x) with false by lia; exact Q0).
  set (S := at_q s q) in *. set (S' := at_q s1 q').
  assert (HD : forall y, D S' y = if y =? eqa then Some (DEventQ q') else if y =? x then Some (DOO oo') else D S y).
  { intros y. unfold S', S. rewrite at_q_D by assumption. destruct (Z.eqb_spec y eqa); [reflexivity|]. rewrite D1, at_q_D by assumption. replace (y =? eqa) with false by lia. reflexivity. }
  assert (QT : forall y, token_at S' y = token_at S y).
  { intros y. rewrite (qu_tok _ _ (at_q_quiet s1 q' Q1)), (qu_tok _ _ (at_q_quiet s q MQ)). eapply token_put; eassumption. }
  assert (QL : forall y, a_len (sget S' y) = a_len (sget S y)).
  { intros y. rewrite (qu_len _ _ (at_q_quiet s1 q' Q1)), (qu_len _ _ (at_q_quiet s q MQ)). apply put_len. }
  assert (HMS : D S k = Some (DMarket m)) by (unfold S; rewrite at_q_D by assumption; replace (k =? eqa) with false by lia; exact MM).
  assert (HQS : D S eqa = Some (DEventQ q)) by (unfold S; rewrite at_q_D by assumption; rewrite Z.eqb_refl; reflexivity).
  pose proof (wi_str _ _ MI) as W.
  assert (FR : forall y d, D S y = Some d -> y <> eqa -> (forall o1, d <> DOO o1) -> D S' y = Some d).
  { intros y d Hy Ny ND. rewrite HD. replace (y =? eqa) with false by lia. destruct (Z.eqb_spec y x) as [->|]; [|exact Hy]. exfalso. destruct LV as (L & _). apply (ND oo). congruence. }
  assert (DS : dstep (D S) (D S') k m m).
  { constructor; try assumption.
    - apply FR; [assumption..|discriminate].
    - apply same_links_refl.
    - exact (ws_flags _ W _ _ HMS).
    - intros sl H. exists sl. apply FR; [assumption| |discriminate]. intros E. rewrite E in H. congruence.
    - intros sl H. exists sl. apply FR; [assumption| |discriminate]. intros E. rewrite E in H. congruence.
    - intros sl H. exists sl. apply FR; [assumption| |discriminate]. intros E. rewrite E in H. congruence.
    - intros sl H. exists q'. rewrite HD, Z.eqb_refl. reflexivity.
    - intros y Y1 Y2 Y3 Y4 Y5. rewrite HD. fold eqa in Y5. replace (y =? eqa) with false by lia. destruct (Z.eqb_spec y x) as [->|]; [|auto]. right.
      split; [right; eauto|]. exists oo'. split; [reflexivity|]. left. split; congruence. }
  assert (PR : proper m -> exists seq L A o, mstate (D S) k m seq L A o /\ ob_eq o = q /\ exists rest, Permutation L ((x, oo) :: rest) /\
     NoDup (map fst rest) /\ (forall y oy, In (y, oy) rest <-> y <> x /\ live (D S) k y oy) /\ ainv m seq ((x, oo) :: rest) A /\
     a_evs A = v :: a_evs (pop A) /\ ev_owner v = x /\ fits m A /\ q_ok q' /\ q_list q' = map event_new (a_evs (pop A))).
  { intros P. destruct (wi_mkt _ _ MI k m HMS P) as (seq & L & A & o & MS). exists seq, L, A, o. split; [assumption|].
    assert (EQ : ob_eq o = q) by (pose proof (ms_evq _ _ _ _ _ _ _ MS) as E; fold eqa in E; congruence). split; [assumption|].
    destruct (lists_take _ _ _ _ _ (ms_lists _ _ _ _ _ _ _ MS) LV) as (rest & PM & ND & NI & IN). exists rest.
    pose proof (cinv_perm _ _ _ _ _ PM (ms_inv _ _ _ _ _ _ _ MS)) as C. pose proof (ci_rep _ _ _ _ C) as RP. pose proof (r_q_ok _ _ RP) as QO. pose proof (r_evs _ _ RP) as RE.
    rewrite EQ in QO, RE. pose proof (pop_front_spec q QO) as PS. rewrite RE in PS. destruct (a_evs A) as [|v0 r] eqn:EA; cbn [map] in PS; [destruct PS as [_ PS]; congruence|].
    destruct PS as (P1 & q1 & P2 & P3 & P4 & _). rewrite PK in P1. injection P1 as ->. rewrite event_roundtrip in VW. injection VW as ->.
    rewrite PO in P2. injection P2 as <- _. split; [assumption|]. split; [assumption|]. split; [assumption|]. split.
    { rewrite <- (ms_mkt _ _ _ _ _ _ _ MS). apply cinv_ainv. exact C. }
    unfold pop. cbn [a_evs]. rewrite EA. cbn [tl]. split; [reflexivity|]. split.
    { unfold x. destruct v as [[] [] ? ? ? ? ? ? [] ?|[] [] ? ? ? ? ? ?]; reflexivity. }
    split; [|auto]. destruct (MF P) as [F1 F2]. unfold fits, paid_coin, paid_pc.
    rewrite (pending_map ev_paid_coin A), (pending_map ev_paid_pc A) in * by (rewrite EA; exact RE). auto. }
  split; [|split; [assumption|]].
  - constructor.
    + rewrite D1. replace (k =? x) with false by lia. exact MM.
    + exact Q1.
    + eapply (winv_step e EO S S' k m m); [exact MI|exact DS| | |apply tdelta_refl; assumption| |].
      * intros y t HT. rewrite QT in HT. exact (wv_amt _ _ (wi_vlt _ _ MI) _ _ HT).
      * intros P. destruct (PR P) as (seq & L & A & o & MS & EQ & rest & PM & ND & IN & AI & EV & OW & FT & QO' & QL').
        pose proof (consume_inv m seq x oo rest A v _ AI EV OW oo' FT CE) as AI'. exists seq, ((x, oo') :: rest), (pop A), (mkObs (ob_bids o) (ob_asks o) m q').
        destruct MS as [E1 E2 E3 E4 E5 LSS C]. constructor; cbn [ob_mkt ob_bids ob_asks ob_eq].
        -- reflexivity.
        -- apply FR; [assumption| |discriminate]. intros E. rewrite E in E2. congruence.
        -- apply FR; [assumption| |discriminate]. intros E. rewrite E in E3. congruence.
        -- rewrite HD. fold eqa. rewrite Z.eqb_refl. reflexivity.
        -- apply FR; [assumption| |discriminate]. intros E. rewrite E in E5. congruence.
        -- eapply lists_put; [exact ND|exact IN| |].
           ++ intros y oy Ny. unfold live. rewrite HD. replace (y =? x) with false by lia. destruct (Z.eqb_spec y eqa) as [->|]; [|reflexivity]. split; intros (E & _); congruence.
           ++ split; [|split; congruence]. rewrite HD. replace (x =? eqa) with false by lia. rewrite Z.eqb_refl. reflexivity.
        -- destruct C. apply ainv_cinv; cbn [ob_bids ob_asks ob_mkt]; try assumption. destruct ci_rep. constructor; assumption.
      * intros. cbn beta. lia.
      * intros. cbn beta. lia.
    + intros P. destruct (PR P) as (seq & L & A & o & MS & EQ & rest & PM & ND & IN & AI & EV & OW & [F1 F2] & QO' & QL').
      unfold qfits. rewrite (pending_map ev_paid_coin (pop A)), (pending_map ev_paid_pc (pop A)) by exact QL'. unfold paid_coin, paid_pc in *. rewrite EV in F1, F2. cbn [zsum] in F1, F2.
      pose proof (head_ok m seq x oo rest A v _ AI EV) as HO.
      assert (0 <= ev_paid_coin v /\ 0 <= ev_paid_pc v) by (destruct v as [[] [] ? ? ? ? ? ? ? ?|[] [] ? ? ? ? ? ?]; cbn in *; lia). lia.
  - intros P. destruct (PR P) as (seq & L & A & o & MS & EQ & rest & PM & ND & IN & AI & EV & OW & FT & QO' & QL').
    destruct (consume_applies m seq x oo rest A v _ AI EV OW FT) as (oo2 & E2 & AP). rewrite CE in E2. injection E2 as <-. split; [assumption|].
    pose proof (r_evs _ _ (ci_rep _ _ _ _ (ms_inv _ _ _ _ _ _ _ MS))) as RE. rewrite EQ, EV in RE. rewrite RE, QL'. reflexivity.
Qed.

(** Events applied in order to the accounts that own them. *)
Fixpoint replay (d : Z -> option adata) (vs : list event_view) (d' : Z -> option adata) : Prop :=
  match vs with
  | [] => forall y, d' y = d y
  | v :: r => exists oo oo' d1, live d k (ev_owner v) oo /\ applied oo oo' v /\
      (forall y, d1 y = if y =? ev_owner v then Some (DOO oo') else d y) /\ replay d1 r d'
  end.
Definition stopped (oos : list Z) (q : queue event) : Prop :=
  q_list q = [] \/ exists v r, q_list q = event_new v :: r /\ binary_search oos (ev_owner v) = false.
Lemma new_owner v : e_owner (event_new v) = ev_owner v.
Proof. destruct v as [[] [] ? ? ? ? ? ? [] ?|[] [] ? ? ? ? ? ?]; reflexivity. Qed.
Lemma mid_queue s q : mid s q -> proper m -> q_ok q /\ exists vs, q_list q = map event_new vs.
Proof.
  intros [MM MQ MI MF] P. pose proof MQ as (q0 & Q0). assert (NK : k <> eqa) by (intros EK; rewrite EK in MM; congruence).
  assert (HMS : D (at_q s q) k = Some (DMarket m)) by (rewrite at_q_D by assumption; replace (k =? eqa) with false by lia; exact MM).
  destruct (wi_mkt _ _ MI k m HMS P) as (seq & L & A & o & MS). pose proof (ms_evq _ _ _ _ _ _ _ MS) as E. fold eqa in E.
  rewrite at_q_D, Z.eqb_refl in E by assumption. injection E as ->. pose proof (ci_rep _ _ _ _ (ms_inv _ _ _ _ _ _ _ MS)) as []. eauto.
Qed.
Lemma replay_ext d1 d2 vs d' : (forall y, d1 y = d2 y) -> replay d1 vs d' -> replay d2 vs d'.
Proof.
  destruct vs as [|v r]; intros E H; cbn [replay] in *; [intros; rewrite H; apply E|]. destruct H as (oo & oo' & d3 & L & AP & H3 & R).
  exists oo, oo', d3. split; [unfold live in *; rewrite <- E; exact L|]. split; [assumption|]. split; [intros; rewrite H3, E; reflexivity|assumption].
Qed.
Lemma consume_loop_inv oos n : forall s q s' q', mid s q -> consume_loop e s m q oos n = Ok (s', q') ->
  mid s' q' /\ quiet s s' /\
  (proper m -> exists vs, q_list q = map event_new vs ++ q_list q' /\ (length vs <= n)%nat /\ (length vs = n \/ stopped oos q') /\
     (forall v, In v vs -> binary_search oos (ev_owner v) = true) /\ replay (D s) vs (D s')).
Proof.
  induction n as [|n IH]; intros s q s' q' MD H; cbn [consume_loop] in H.
  - injection H as <- <-. split; [assumption|]. split; [apply quiet_refl|]. intros _. exists []. split; [reflexivity|]. split; [cbn; lia|]. split; [left; reflexivity|]. split; [intros v []|]. intros y. reflexivity.
  - apply rbind_ok in H. destruct H as (oev & PK & H). destruct oev as [ev|].
    + apply rbind_ok in H. destruct H as (v & VW & H). destruct (binary_search oos (e_owner ev)) eqn:BS.
      * apply rbind_ok in H. destruct H as (oo & LO & H). apply rbind_ok in H. destruct H as (oo' & CE & H). apply rbind_ok in H. destruct H as (r & PO & H).
        apply rbind_ok in H. destruct H as (q1 & HQ & H). destruct r as [[q2 z]|]; [|discriminate]. injection HQ as <-. cbn [fst] in H.
        destruct (consume_one _ _ _ _ _ _ _ _ MD PK VW LO CE PO) as (MD1 & LV & PR). destruct (IH _ _ _ _ MD1 H) as (MD' & Q & RP). destruct LV as (LV1 & LV2).
        split; [assumption|]. split; [eapply quiet_trans; [eapply quiet_put; [exact EO|exact LV1]|exact Q]|].
        intros P. destruct (PR P) as (AP & EQ). destruct (RP P) as (vs & E1 & E2 & E3 & E4 & E5). exists (v :: vs). pose proof (view_owner _ _ VW) as OW.
        split; [cbn [map app]; rewrite EQ, E1; reflexivity|]. split; [cbn [length]; lia|]. split; [destruct E3 as [<-|E3]; [left; reflexivity|right; assumption]|].
        split; [intros v0 [<-|I]; [rewrite OW; exact BS|auto]|]. cbn [replay]. rewrite OW. exists oo, oo', (D (put_data s (e_owner ev) (DOO oo'))).
        split; [split; assumption|]. split; [assumption|]. split; [|assumption]. intros y. eapply dexd_put_owned. eassumption.
      * injection H as <- <-. split; [assumption|]. split; [apply quiet_refl|]. intros P. exists []. split; [reflexivity|]. split; [cbn; lia|].
        split; [right|]. { destruct (mid_queue _ _ MD P) as [QO (vs & EV)]. pose proof (pop_front_spec q QO) as PS. rewrite EV in PS. destruct vs as [|v0 r]; cbn [map] in PS; [destruct PS; congruence|].
          destruct PS as (P1 & _). rewrite PK in P1. injection P1 as ->. right. exists v0, (map event_new r). split; [exact EV|]. rewrite <- new_owner. exact BS. }
        split; [intros v0 []|]. intros y. reflexivity.
    + injection H as <- <-. split; [assumption|]. split; [apply quiet_refl|]. intros P. exists []. split; [reflexivity|]. split; [cbn; lia|].
      split; [right; left|split; [intros v0 []|intros y; reflexivity]]. destruct (mid_queue _ _ MD P) as [QO (vs & EV)]. pose proof (pop_front_spec q QO) as PS.
      destruct (q_list q); [reflexivity|]. destruct PS. congruence.
Qed.
Lemma put_same s x d : D s x = Some d -> put_data s x d = s.
Proof.
  intros H. apply dexd_owned in H. destruct H as [H1 H2]. pose proof (eo_sys _ EO) as NZ. unfold put_data, sget in *.
  assert (F : exists a, sfind s x = Some a) by (destruct (sfind s x); [eauto|exfalso; apply NZ; rewrite <- H1; reflexivity]). destruct F as (a & F). rewrite F in *.
  assert (E : set_data a d = a) by (destruct a; cbn in *; subst; reflexivity). rewrite E. clear - F. induction s as [|[k' b] r IH]; cbn [sfind sput] in *; [discriminate|].
  destruct (Z.eqb_spec k' x) as [->|]; [injection F as ->; reflexivity|]. rewrite IH by assumption. reflexivity.
Qed.
(** Where a consume starts. *)
Lemma mid_start s q : winv e s -> D s k = Some (DMarket m) -> D s eqa = Some (DEventQ q) -> (proper m -> qfits q) -> mid s q.
Proof. intros WI HM HQ F. constructor; try assumption; [eauto|]. unfold at_q. rewrite put_same by assumption. exact WI. Qed.
Lemma step_consume s q qa oos limit s' : winv e s -> D s k = Some (DMarket m) -> D s eqa = Some (DEventQ q) -> (proper m -> qfits q) ->
  consume_with e s m qa oos limit = Ok s' -> qa = eqa /\ winv e s' /\ quiet s s' /\
  exists s1 q', consume_loop e s m q oos (Z.to_nat limit) = Ok (s1, q') /\ s' = at_q s1 q' /\ mid s1 q'.
Proof.
  intros WI HM HQ F H. unfold consume_with in H. apply rbind_ok in H. destruct H as (q1 & LQ & H). apply rbind_ok in H. destruct H as ([s1 q'] & CL & H). injection H as <-.
  destruct (load_evq_ok e s k m (wi_str _ _ WI) HM _ _ LQ) as [EQA HQ']. rewrite EQA in *. assert (q1 = q) by (unfold eqa in HQ; congruence). subst q1. change (m_event_q m) with eqa.
  pose proof (mid_start _ _ WI HM HQ F) as MD. destruct (consume_loop_inv _ _ _ _ _ _ MD CL) as (MD' & Q & _). split; [reflexivity|]. split; [exact (md_inv _ _ MD')|].
  split; [eapply quiet_trans; [exact Q|apply at_q_quiet; exact (md_q _ _ MD')]|]. exists s1, q'. auto.
Qed.
End Consume.
