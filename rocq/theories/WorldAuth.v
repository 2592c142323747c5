(** Who must have signed for what, instruction by instruction. *)
From Coq Require Import Permutation.
From Verif Require Import Base BaseProofs Fees ListSum Queue QueueProofs Codec CodecProofs Critbit CritbitSlab Market Matching
  MatchSteps MatchSpec Ledger Slots Core CoreInv CoreNew CoreCancel CoreConsume CoreSettle CoreFrame Instr InstrProofs
  Store Process StoreProofs World WorldInv WorldLoad WorldRun WorldStep WorldStep2 WorldConsume WorldInit WorldSpec.

Section Auth.
Variable e : env.
Hypothesis EO : env_ok e.
Notation D := (dexd e).

(** ** What happens to the dex's accounts *)
Definition same_but (m m' : market) : Prop :=
  m' = set_flags (set_counters m (m_coin_deposits m') (m_pc_deposits m') (m_pc_fees m') (m_rebates m')) (m_flags m').
Lemma same_but_sm m m' : same_market m m' -> same_but m m' /\ m_flags m' = m_flags m.
Proof. unfold same_market, same_but. intros E. split; rewrite E; reflexivity. Qed.
Lemma same_but_refl m : same_but m m. Proof. destruct m; reflexivity. Qed.
Lemma same_but_trans a b c : same_but a b -> same_but b c -> same_but a c.
Proof. unfold same_but. intros H1 H2. rewrite H2, H1. reflexivity. Qed.

Record deed (s s' : store) (k : Z) (m m' : market) (xo : option (Z * open_orders)) : Prop := mkDeed {
  de_mkt : D s k = Some (DMarket m); de_mkt' : D s' k = Some (DMarket m'); de_same : same_but m m';
  de_str : wstruct (D s');
  de_oos : forall y, (exists oo, D s y = Some (DOO oo) \/ D s' y = Some (DOO oo)) -> (forall a o, xo = Some (a, o) -> y <> a) -> D s' y = D s y;
  de_mkts : forall y, y <> k -> (exists my, D s y = Some (DMarket my) \/ D s' y = Some (DMarket my)) -> D s' y = D s y;
  de_at : forall a o, xo = Some (a, o) -> D s' a = Some (DOO o);
  de_else : forall y, y <> k -> y <> m_bids m -> y <> m_asks m -> y <> m_event_q m -> y <> m_req_q m -> (forall a o, xo = Some (a, o) -> y <> a) -> D s' y = D s y }.

Lemma deed_intro s s' k m m' xo : wstruct (D s) -> dstep (D s) (D s') k m m' -> same_but m m' ->
  (forall y, y <> k -> y <> m_bids m -> y <> m_asks m -> y <> m_event_q m -> y <> m_req_q m ->
     D s' y = match xo with Some (a, oo) => if y =? a then Some (DOO oo) else D s y | None => D s y end) ->
  (forall a o, xo = Some (a, o) -> touchable e s k a) -> deed s s' k m m' xo.
Proof.
  intros W S SB V T. pose proof (ds_mkt _ _ _ _ _ S) as HM. pose proof (ds_mkt' _ _ _ _ _ S) as HM'.
  assert (K : forall y oo, D s y = Some (DOO oo) \/ D s' y = Some (DOO oo) \/ D s y = Some DZero -> y <> k /\ y <> m_bids m /\ y <> m_asks m /\ y <> m_event_q m /\ y <> m_req_q m).
  { intros y oo H. destruct (ws_asks _ W _ _ HM) as (? & HA). destruct (ds_asks _ _ _ _ _ S _ HA) as (? & HA').
    destruct (ws_req _ W _ _ HM) as (? & HR). destruct (ds_req _ _ _ _ _ S _ HR) as (? & HR').
    destruct (ws_evq _ W _ _ HM) as (? & HE). destruct (ds_evq _ _ _ _ _ S _ HE) as (? & HE').
    assert (y <> m_bids m).
    { intros ->. destruct (Z.eq_dec (m_bids m) (m_asks m)) as [E|N].
      - rewrite E in H. intuition congruence.
      - destruct (ws_bids _ W _ _ HM N) as (? & HB). destruct (ds_bids _ _ _ _ _ S _ HB) as (? & HB'). intuition congruence. }
    split; [|split; [assumption|split; [|split]]]; intros ->; intuition congruence. }
  constructor; try assumption.
  - eapply wstruct_step; eassumption.
  - intros y (oo & H) N. destruct (K y oo ltac:(tauto)) as (k1 & k2 & k3 & k4 & k5). rewrite V by assumption. destruct xo as [[a o]|]; [|reflexivity].
    replace (y =? a) with false; [reflexivity|]. specialize (N a o eq_refl). lia.
  - intros y N (my & [H|H]).
    + eapply other_market; eassumption.
    + pose proof (market_was _ _ _ _ _ W S y my H N). congruence.
  - intros a o E. specialize (T a o E). assert (H : exists oo, D s a = Some (DOO oo) \/ D s' a = Some (DOO oo) \/ D s a = Some DZero) by (destruct T as [T|(oo & T & _)]; [exists oo_zero|exists oo]; auto).
    destruct H as (oo & H). destruct (K a oo H) as (k1 & k2 & k3 & k4 & k5). rewrite V by assumption. rewrite E, Z.eqb_refl. reflexivity.
  - intros y k1 k2 k3 k4 k5 N. rewrite V by assumption. destruct xo as [[a o]|]; [|reflexivity]. replace (y =? a) with false; [reflexivity|]. specialize (N a o eq_refl). lia.
Qed.
Lemma deed_trans s s1 s2 k m m1 m2 x o1 o2 : deed s s1 k m m1 (Some (x, o1)) -> deed s1 s2 k m1 m2 (Some (x, o2)) -> deed s s2 k m m2 (Some (x, o2)).
Proof.
  intros [a1 a2 a3 a4 a5 a6 a7 a8] [b1 b2 b3 b4 b5 b6 b7 b8]. constructor; try assumption.
  - eapply same_but_trans; eassumption.
  - intros y (oo & H) N. assert (N1 : forall a o, Some (x, o1) = Some (a, o) -> y <> a) by (intros a o [= <- <-]; apply (N x o2); reflexivity).
    destruct H as [H|H].
    + pose proof (a5 y ltac:(eauto) N1) as E. rewrite <- E. apply b5; [exists oo; left; congruence|exact N].
    + pose proof (b5 y ltac:(eauto) N) as E. rewrite E. apply a5; [exists oo; right; congruence|exact N1].
  - intros y N (my & [H|H]).
    + pose proof (a6 y N ltac:(eauto)) as E. rewrite <- E. apply b6; [exact N|exists my; left; congruence].
    + pose proof (b6 y N ltac:(eauto)) as E. rewrite E. apply a6; [exact N|exists my; right; congruence].
  - intros y N1 N2 N3 N4 N5 N. unfold same_but in a3. assert (Nx : y <> x) by (apply (N x o2); reflexivity).
    rewrite b8; [apply a8; try assumption; intros a o [= <- <-]; exact Nx|try (rewrite a3; cbn [set_flags set_counters m_bids m_asks m_event_q m_req_q]); try assumption ..].
Qed.
Lemma deed_refl s k m x oo : wstruct (D s) -> D s k = Some (DMarket m) -> D s x = Some (DOO oo) -> deed s s k m m (Some (x, oo)).
Proof. intros W HM HX. constructor; try assumption; try reflexivity; [apply same_but_refl|]. intros a o [= <- <-]. assumption. Qed.

(** ** What happens to token accounts: nothing goes out without [P], except from accounts [V] *)
Definition purse (P V : Z -> Prop) (s s' : store) : Prop := forall v t, token_at s v = Some t ->
  exists t', token_at s' v = Some t' /\ t_owner t' = t_owner t /\ t_mint t' = t_mint t /\ (t_delegate t' = t_delegate t \/ t_delegate t' = None) /\
    (t_amount t' < t_amount t -> P (t_owner t) \/ (exists d, t_delegate t = Some d /\ P d) \/ V v).
Lemma purse_refl P V s : purse P V s s.
Proof. intros v t H. exists t. split; [assumption|]. split; [reflexivity|]. split; [reflexivity|]. split; [left; reflexivity|lia]. Qed.
Lemma purse_same P V s s' : (forall v, token_at s' v = token_at s v) -> purse P V s s'.
Proof. intros Q v t H. exists t. split; [rewrite Q; assumption|]. split; [reflexivity|]. split; [reflexivity|]. split; [left; reflexivity|lia]. Qed.
Lemma purse_trans P V a b c : purse P V a b -> purse P V b c -> purse P V a c.
Proof.
  intros H1 H2 v t H. destruct (H1 v t H) as (t1 & T1 & O1 & M1 & D1 & A1). destruct (H2 v t1 T1) as (t2 & T2 & O2 & M2 & D2 & A2).
  exists t2. split; [assumption|]. split; [congruence|]. split; [congruence|]. split; [intuition congruence|]. intros L.
  destruct (Z_lt_le_dec (t_amount t1) (t_amount t)) as [G|G]; [auto|]. destruct (A2 ltac:(lia)) as [Y|[(d & Y1 & Y2)|Y]].
  - left. rewrite <- O1. exact Y.
  - right. left. exists d. split; [|exact Y2]. destruct D1; congruence.
  - auto.
Qed.
Lemma purse_weak (P V P' V' : Z -> Prop) s s' : (forall x, P x -> P' x) -> (forall x, V x -> V' x) -> purse P V s s' -> purse P' V' s s'.
Proof.
  intros HP HV H v t Hv. destruct (H v t Hv) as (t' & T & O & M & DL & A). exists t'. split; [assumption|]. split; [assumption|]. split; [assumption|]. split; [assumption|].
  intros L. destruct (A L) as [Y|[(d & Y1 & Y2)|Y]]; [auto|right; left; eauto|auto].
Qed.
Lemma is_delegate_eq t a : is_delegate t a = true -> t_delegate t = Some a.
Proof. unfold is_delegate. destruct (t_delegate t); [|discriminate]. intros H. f_equal. lia. Qed.
Lemma purse_move (P V : Z -> Prop) s s' src dst auth amt : transferred e s s' src dst auth amt -> P auth \/ V src -> purse P V s s'.
Proof.
  intros T PV. destruct (tr_tok _ _ _ _ _ _ _ T) as (ts & td & H1 & H2 & M & _ & _ & _ & AU & R). pose proof (tr_amt _ _ _ _ _ _ _ T) as N.
  destruct (Z.eqb_spec src dst) as [E|NE]; [subst s'; apply purse_refl|]. destruct R as [_ R]. intros v t H. rewrite R.
  destruct (Z.eqb_spec v dst) as [->|N1].
  - assert (t = td) by congruence. subst t. eexists. split; [reflexivity|]. cbn. split; [reflexivity|]. split; [reflexivity|]. split; [auto|lia].
  - destruct (Z.eqb_spec v src) as [->|N2].
    + assert (t = ts) by congruence. subst t. eexists. split; [reflexivity|]. cbn. assert (AU2 : P (t_owner ts) \/ (exists d, t_delegate ts = Some d /\ P d) \/ V src).
      { destruct PV as [PV|PV]; [|auto]. destruct AU as [AU|AU]; [right; left; exists auth; split; [apply is_delegate_eq; assumption|assumption]|left; congruence]. }
      destruct (is_delegate ts auth); cbn; auto 10. unfold use_delegate. cbn. destruct (_ =? 0); cbn; auto 10.
    + exists t. split; [assumption|]. split; [reflexivity|]. split; [reflexivity|]. split; [auto|lia].
Qed.
Lemma purse_in (P V : Z -> Prop) s s' h src v auth amt : transfer_in s h src v auth amt = Ok s' -> P auth -> purse P V s s'.
Proof.
  intros H PA. destruct (transfer_in_ok e (eo_spl _ EO) _ _ _ _ _ _ _ H) as [(-> & ->)|(_ & T & _)]; [apply purse_refl|]. eapply purse_move; [exact T|auto].
Qed.
Lemma purse_out (P V : Z -> Prop) s s' src v auth amt : send_from_vault s src v auth amt = Ok s' -> V src -> purse P V s s'.
Proof. intros H PA. eapply purse_move; [eapply send_from_vault_ok; [exact (eo_spl _ EO)|exact H]|auto]. Qed.
Lemma in_D s s' h src v auth amt y : transfer_in s h src v auth amt = Ok s' -> D s' y = D s y.
Proof. intros H. destruct (transfer_in_ok e (eo_spl _ EO) _ _ _ _ _ _ _ H) as [(-> & ->)|(_ & T & _)]; [reflexivity|apply (tr_dexd _ _ _ _ _ _ _ T)]. Qed.
Lemma out_D s s' src v auth amt y : send_from_vault s src v auth amt = Ok s' -> D s' y = D s y.
Proof. intros H. apply (tr_dexd _ _ _ _ _ _ _ (send_from_vault_ok e (eo_spl _ EO) _ _ _ _ _ _ H)). Qed.

Lemma signed_by_at ms i w : signed ms i w -> signed_by ms w.
Proof. intros (a & N & E & S). exists a. split; [eapply nth_error_In; eassumption|auto]. Qed.
Lemma key_map ms i l : map mk ms = l -> key_at ms i = nth_error l i.
Proof. intros <-. unfold key_at. symmetry. apply nth_error_map. Qed.
Definition enabled (m : market) : Prop := check_market_flags (m_flags m) false = Ok tt.

(** ** Instruction by instruction *)
Lemma order_deed s c ix ms s' : wstruct (D s) -> proc_new_order e c s ix ms = Ok s' ->
  exists k x w m m' oo oo', key_at ms 0 = Some k /\ key_at ms 1 = Some x /\ signed ms 7 w /\ enabled m /\ m_flags m' = m_flags m /\
    deed s s' k m m' (Some (x, oo')) /\ (live (D s) k x oo \/ (D s x = Some DZero /\ oo_authority m = None /\ oo = oo_fresh k w)) /\ oo_owner oo = w /\
    same_id oo oo' /\ oo_flags oo' = OO_FLAGS /\ oo_market oo' = k /\ purse (signed_by ms) (fun _ => False) s s'.
Proof.
  intros W H. destruct (new_order_ran e s c ix ms s' W H) as (k & x & payer & w & m & bids & asks & q & rq & t & oo & pt & o' & rq' & oo' & dep & R).
  destruct (no_frame _ _ _ _ _ _ _ _ _ _ _ _ _ _ _ _ _ _ _ _ _ _ R) as (SM & SI & _).
  destruct R as [(rest & KM) SG FL [HM NB HB HA HQ] HR HP HMI LO OW HC TR _].
  destruct (oo_touch e s m k x _ _ _ oo W HM LO) as (T & F & MK). pose proof SI as (I1 & I2 & I3).
  pose proof (write_obs_D e s k m bids asks q rq HM NB HB HA HQ HR o') as V1. pose proof (write_obs_quiet e EO s k m bids asks q rq HM NB HB HA HQ HR o') as Q1.
  set (s1 := write_obs s k (m_bids m) (m_asks m) (m_event_q m) o') in *.
  assert (V2 : forall y, D (put_data s1 (m_req_q m) (DReqQ rq')) y = overlay e s k m o' rq' None y) by (intros; eapply put_req_D; eauto).
  assert (R1 : exists d, D s1 (m_req_q m) = Some d).
  { rewrite V1. unfold overlay. repeat match goal with |- context [if ?b then _ else _] => destruct b end; eauto. }
  destruct R1 as (d1 & R1). pose proof (quiet_put e EO _ _ (DReqQ rq') _ R1) as Q2. set (s2 := put_data s1 _ _) in *.
  assert (V3 : forall y, D (put_data s2 x (DOO oo')) y = overlay e s k m o' rq' (Some (x, oo')) y) by (intros; eapply put_oo_D; eauto).
  assert (R2 : exists d, D s2 x = Some d) by (rewrite (over_touch e s k m bids asks q rq W HM NB HB HA HQ HR s2 o' rq' x T V2); eapply touch_some; exact T).
  destruct R2 as (d2 & R2). pose proof (quiet_put e EO _ _ (DOO oo') _ R2) as Q3. set (s3 := put_data s2 _ _) in *.
  pose proof (quiet_trans _ _ _ (quiet_trans _ _ _ Q1 Q2) Q3) as Q.
  assert (V : forall y, D s' y = overlay e s k m o' rq' (Some (x, oo')) y) by (intros y; rewrite (in_D _ _ _ _ _ _ _ y TR); apply V3).
  destruct (same_but_sm _ _ SM) as [SB FE].
  exists k, x, w, m, (ob_mkt o'), oo, oo'. split; [rewrite (key_map _ _ _ KM); reflexivity|]. split; [rewrite (key_map _ _ _ KM); reflexivity|]. split; [assumption|].
  split; [exact FL|]. split; [assumption|]. split.
  { apply deed_intro; [assumption| |assumption| |].
    - eapply over_dstep with (bids := bids) (asks := asks) (q := q) (rq := rq); eauto; [apply same_links_sm; exact SM|rewrite FE; exact (ws_flags _ W _ _ HM)|].
      intros a1 oo1 [= <- <-]. split; [assumption|]. left. split; congruence.
    - intros y n1 n2 n3 n4 n5. rewrite V. unfold overlay. replace (y =? k) with false by lia. replace (y =? m_bids m) with false by lia. replace (y =? m_asks m) with false by lia.
      replace (y =? m_event_q m) with false by lia. replace (y =? m_req_q m) with false by lia. reflexivity.
    - intros a o [= <- <-]. assumption. }
  split. { destruct LO as [LV|(Z1 & Z2 & _ & u & c0 & [= <-] & _ & _ & Z3)]; [auto|right]. split; [assumption|]. split; [congruence|]. rewrite Z3, (ws_own _ W _ _ HM). reflexivity. }
  split; [assumption|]. split; [assumption|]. split; [congruence|]. split; [congruence|].
  eapply purse_trans; [apply purse_same; exact (qu_tok _ _ Q)|]. eapply purse_in; [exact TR|]. eapply signed_by_at; eassumption.
Qed.
Lemma cancel_deed s core ms s' : wstruct (D s) -> proc_cancel e s core ms = Ok s' ->
  (forall o x oo o' oo', core o x oo = Ok (o', oo') -> ob_mkt o' = ob_mkt o /\ same_id oo oo') ->
  exists k x w m oo oo', key_at ms 0 = Some k /\ key_at ms 3 = Some x /\ signed ms 4 w /\ deed s s' k m m (Some (x, oo')) /\
    live (D s) k x oo /\ oo_owner oo = w /\ same_id oo oo' /\ (forall v, token_at s' v = token_at s v).
Proof.
  intros W H FR. destruct (cancel_ran e s core ms s' W H) as (k & x & w & m & bids & asks & q & oo & o' & oo' & R & SG & rest & KM).
  exists k, x, w, m, oo, oo'. split; [rewrite (key_map _ _ _ KM); reflexivity|]. split; [rewrite (key_map _ _ _ KM); reflexivity|]. split; [assumption|].
  destruct R as [FL B LO OW HC ->]. destruct (FR _ _ _ _ _ HC) as [EM SI]. cbn [ob_mkt] in EM.
  enough (G : deed s (put_data (write_obs s k (m_bids m) (m_asks m) (m_event_q m) o') x (DOO oo')) k m m (Some (x, oo')) /\
    (forall v, token_at (put_data (write_obs s k (m_bids m) (m_asks m) (m_event_q m) o') x (DOO oo')) v = token_at s v)) by (destruct G; auto 10).
  clear H KM SG HC FR. destruct B as [HM NB HB HA HQ]. destruct (ws_req _ W _ _ HM) as (rq & HR).
  pose proof (write_obs_D e s k m bids asks q rq HM NB HB HA HQ HR o') as V1. pose proof (write_obs_quiet e EO s k m bids asks q rq HM NB HB HA HQ HR o') as Q1.
  assert (T : touchable e s k x) by (right; eauto). destruct LO as (L1 & L2 & L3). destruct SI as (I1 & I2 & I3).
  set (s1 := write_obs s k (m_bids m) (m_asks m) (m_event_q m) o') in *.
  assert (V3 : forall y, D (put_data s1 x (DOO oo')) y = overlay e s k m o' rq (Some (x, oo')) y) by (intros; eapply put_oo_D; eauto).
  assert (R2 : exists d, D s1 x = Some d) by (rewrite (over_touch e s k m bids asks q rq W HM NB HB HA HQ HR s1 o' rq x T V1); eapply touch_some; exact T).
  destruct R2 as (d2 & R2). pose proof (quiet_put e EO _ _ (DOO oo') _ R2) as Q3. split; [|exact (qu_tok _ _ (quiet_trans _ _ _ Q1 Q3))].
  apply deed_intro; [assumption| |apply same_but_refl| |].
  - rewrite <- EM at 2. eapply over_dstep with (bids := bids) (asks := asks) (q := q) (rq := rq); eauto; [rewrite EM; apply same_links_refl|rewrite EM; exact FL|].
    intros a1 oo1 [= <- <-]. split; [assumption|]. left. split; congruence.
  - intros y n1 n2 n3 n4 n5. rewrite V3. unfold overlay. replace (y =? k) with false by lia. replace (y =? m_bids m) with false by lia. replace (y =? m_asks m) with false by lia.
    replace (y =? m_event_q m) with false by lia. replace (y =? m_req_q m) with false by lia. reflexivity.
  - intros a o [= <- <-]. assumption.
Qed.
Lemma prune_deed s limit ms s' : wstruct (D s) -> proc_prune e s limit ms = Ok s' ->
  exists k x auth m oo oo', key_at ms 0 = Some k /\ key_at ms 4 = Some x /\ signed ms 3 auth /\ prune_authority m = Some auth /\ enabled m /\
    deed s s' k m m (Some (x, oo')) /\ live (D s) k x oo /\ same_id oo oo' /\ (forall v, token_at s' v = token_at s v).
Proof.
  intros W H. destruct (prune_ran e s limit ms s' W H) as (k & x & w & auth & m & bids & asks & q & oo & o' & oo' & R & SG & PA & EN & KM).
  exists k, x, auth, m, oo, oo'. split; [rewrite (key_map _ _ _ KM); reflexivity|]. split; [rewrite (key_map _ _ _ KM); reflexivity|]. split; [assumption|]. split; [assumption|]. split; [exact EN|].
  destruct R as [FL B LO OW HC ->]. destruct (prune_frame _ _ _ _ _ _ HC) as [EM SI]. cbn [ob_mkt] in EM.
  enough (G : deed s (put_data (write_obs s k (m_bids m) (m_asks m) (m_event_q m) o') x (DOO oo')) k m m (Some (x, oo')) /\
    (forall v, token_at (put_data (write_obs s k (m_bids m) (m_asks m) (m_event_q m) o') x (DOO oo')) v = token_at s v)) by (destruct G; auto 10).
  clear H KM SG HC. destruct B as [HM NB HB HA HQ]. destruct (ws_req _ W _ _ HM) as (rq & HR).
  pose proof (write_obs_D e s k m bids asks q rq HM NB HB HA HQ HR o') as V1. pose proof (write_obs_quiet e EO s k m bids asks q rq HM NB HB HA HQ HR o') as Q1.
  assert (T : touchable e s k x) by (right; eauto). destruct LO as (L1 & L2 & L3). destruct SI as (I1 & I2 & I3).
  set (s1 := write_obs s k (m_bids m) (m_asks m) (m_event_q m) o') in *.
  assert (V3 : forall y, D (put_data s1 x (DOO oo')) y = overlay e s k m o' rq (Some (x, oo')) y) by (intros; eapply put_oo_D; eauto).
  assert (R2 : exists d, D s1 x = Some d) by (rewrite (over_touch e s k m bids asks q rq W HM NB HB HA HQ HR s1 o' rq x T V1); eapply touch_some; exact T).
  destruct R2 as (d2 & R2). pose proof (quiet_put e EO _ _ (DOO oo') _ R2) as Q3. split; [|exact (qu_tok _ _ (quiet_trans _ _ _ Q1 Q3))].
  apply deed_intro; [assumption| |apply same_but_refl| |].
  - rewrite <- EM at 2. eapply over_dstep with (bids := bids) (asks := asks) (q := q) (rq := rq); eauto; [rewrite EM; apply same_links_refl|rewrite EM; exact FL|].
    intros a1 oo1 [= <- <-]. split; [assumption|]. left. split; congruence.
  - intros y n1 n2 n3 n4 n5. rewrite V3. unfold overlay. replace (y =? k) with false by lia. replace (y =? m_bids m) with false by lia. replace (y =? m_asks m) with false by lia.
    replace (y =? m_event_q m) with false by lia. replace (y =? m_req_q m) with false by lia. reflexivity.
  - intros a o [= <- <-]. assumption.
Qed.
Lemma take_deed s ix ms s' : wstruct (D s) -> proc_send_take e s ix ms = Ok s' ->
  exists k m m', key_at ms 0 = Some k /\ enabled m /\ m_flags m' = m_flags m /\ deed s s' k m m' None /\
    purse (signed_by ms) (fun v => v = m_coin_vault m \/ v = m_pc_vault m) s s'.
Proof.
  intros W H. destruct (send_take_ran e s ix ms s' W H) as (k & cw & pw & w & p & m & bids & asks & q & rq & t & o' & rq' & dep & wd & s2 & R).
  pose proof (proj1 (st_frame _ _ _ _ _ _ _ _ _ _ _ _ _ _ _ _ _ _ _ _ _ R)) as SM.
  destruct R as [(rest & KM) SG FL [HM NB HB HA HQ] HR HP HC TI TO _].
  pose proof (write_obs_D e s k m bids asks q rq HM NB HB HA HQ HR o') as V1. pose proof (write_obs_quiet e EO s k m bids asks q rq HM NB HB HA HQ HR o') as Q1.
  set (s1 := write_obs s k (m_bids m) (m_asks m) (m_event_q m) o') in *.
  assert (V2 : forall y, D (put_data s1 (m_req_q m) (DReqQ rq')) y = overlay e s k m o' rq' None y) by (intros; eapply put_req_D; eauto).
  assert (R1 : exists d, D s1 (m_req_q m) = Some d).
  { rewrite V1. unfold overlay. repeat match goal with |- context [if ?b then _ else _] => destruct b end; eauto. }
  destruct R1 as (d1 & R1). pose proof (quiet_put e EO _ _ (DReqQ rq') _ R1) as Q2. pose proof (quiet_trans _ _ _ Q1 Q2) as Q. destruct (same_but_sm _ _ SM) as [SB FE].
  assert (V : forall y, D s' y = overlay e s k m o' rq' None y).
  { intros y. rewrite <- V2, <- (in_D _ _ _ _ _ _ _ y TI). destruct (wd =? 0); [subst s'; reflexivity|]. exact (out_D _ _ _ _ _ _ y TO). }
  exists k, m, (ob_mkt o'). split; [rewrite (key_map _ _ _ KM); reflexivity|]. split; [exact FL|]. split; [assumption|]. split.
  - apply deed_intro; [assumption| |assumption| |discriminate].
    + eapply over_dstep with (bids := bids) (asks := asks) (q := q) (rq := rq); eauto; [apply same_links_sm; exact SM|rewrite FE; exact (ws_flags _ W _ _ HM)|discriminate].
    + intros y n1 n2 n3 n4 n5. rewrite V. unfold overlay. replace (y =? k) with false by lia. replace (y =? m_bids m) with false by lia. replace (y =? m_asks m) with false by lia.
      replace (y =? m_event_q m) with false by lia. replace (y =? m_req_q m) with false by lia. reflexivity.
  - eapply purse_trans; [apply purse_same; exact (qu_tok _ _ Q)|]. eapply purse_trans; [eapply purse_in; [exact TI|eapply signed_by_at; eassumption]|].
    destruct (wd =? 0); [subst s'; apply purse_refl|]. eapply purse_out; [exact TO|]. destruct (ti_side ix); auto.
Qed.
Lemma small_deed s s' k m m' xo : wstruct (D s) -> D s k = Some (DMarket m) -> (forall y, D s' y = small e s k m' xo y) -> same_but m m' ->
  check_market_flags (m_flags m') true = Ok tt -> (forall a oo, xo = Some (a, oo) -> touchable e s k a /\ oo_next k oo) -> deed s s' k m m' xo.
Proof.
  intros W HM V SB FL HX. apply deed_intro; [assumption| |assumption| |].
  - eapply small_dstep; eauto. rewrite SB. repeat split.
  - intros y n1 _ _ _ _. rewrite V. unfold small. replace (y =? k) with false by lia. reflexivity.
  - intros a o E. apply (HX a o E).
Qed.
Lemma settle_deed s ms s' : wstruct (D s) -> proc_settle e s ms = Ok s' ->
  exists k x w m m' oo oo', key_at ms 0 = Some k /\ key_at ms 1 = Some x /\ signed ms 2 w /\ m_flags m' = m_flags m /\
    deed s s' k m m' (Some (x, oo')) /\ live (D s) k x oo /\ oo_owner oo = w /\ same_id oo oo' /\
    purse (signed_by ms) (fun v => v = m_coin_vault m \/ v = m_pc_vault m) s s'.
Proof.
  intros W H. destruct (settle_ran e s ms s' W H) as (k & x & w & cw & pw & p & ref & m & oo & m' & oo' & ca & pa & rb & s2 & s3 & R).
  destruct R as [(spl & r1) r2 r3 r4 r5 r6 r7 r8 r9 r10]. assert (T : touchable e s k x) by (right; eauto). destruct (settle_frame _ _ _ _ _ _ _ _ r7) as [SM SI].
  pose proof (quiet_mkt_oo e EO s k m m' x oo' r3 T) as Q. destruct (same_but_sm _ _ SM) as [SB FE].
  assert (V : forall y, D s' y = small e s k m' (Some (x, oo')) y).
  { intros y. rewrite <- (put_mkt_oo_D e s k m m' x oo' y r3 T), <- (out_D _ _ _ _ _ _ y r8), <- (out_D _ _ _ _ _ _ y r9). destruct ref, rb; try (subst s'; reflexivity). exact (out_D _ _ _ _ _ _ y r10). }
  exists k, x, w, m, m', oo, oo'. split; [rewrite (key_map _ _ _ r1); reflexivity|]. split; [rewrite (key_map _ _ _ r1); reflexivity|]. split; [assumption|]. split; [assumption|].
  split. { apply small_deed; try assumption; [rewrite FE; exact (ws_flags _ W _ _ r3)|]. intros a o [= <- <-]. split; [assumption|]. left. destruct r5 as (? & ? & ?), SI as (? & ? & ?). split; congruence. }
  split; [assumption|]. split; [assumption|]. split; [assumption|].
  eapply purse_trans; [apply purse_same; exact (qu_tok _ _ Q)|]. eapply purse_trans; [eapply purse_out; [exact r8|auto]|]. eapply purse_trans; [eapply purse_out; [exact r9|auto]|].
  destruct ref, rb; try (subst s'; apply purse_refl). eapply purse_out; [exact r10|auto].
Qed.
Lemma disable_deed s ms s' : wstruct (D s) -> proc_disable e s ms = Ok s' ->
  exists k m, key_at ms 0 = Some k /\ signed ms 1 disable_authority /\ enabled m /\ deed s s' k m (set_flags m (Z.lor (m_flags m) AF_Disabled)) None /\
    s' = put_data s k (DMarket (set_flags m (Z.lor (m_flags m) AF_Disabled))) /\ (forall v, token_at s' v = token_at s v).
Proof.
  intros W H. destruct (disable_ran e s ms s' W H) as (k & m & KM & SG & HM & FL & E). exists k, m. split; [rewrite (key_map _ _ _ KM); reflexivity|]. split; [assumption|]. split; [exact FL|].
  split; [|split; [assumption|subst s'; exact (qu_tok _ _ (quiet_put e EO _ _ _ _ HM))]]. subst s'. apply small_deed; try assumption; [| |apply flags_disabled; exact FL|discriminate].
  - intros y. apply put_mkt_D with (m := m). assumption.
  - destruct m; reflexivity.
Qed.
Lemma sweep_deed s ms s' : wstruct (D s) -> proc_sweep e s ms = Ok s' ->
  exists k m pw p spl, map mk ms = [k; m_pc_vault m; fee_sweeper; pw; p; spl] /\ signed ms 2 fee_sweeper /\ enabled m /\ deed s s' k m (set_pc_fees m 0) None /\
    e_pda e (m_nonce m) k = Some p /\ transferred e (put_data s k (DMarket (set_pc_fees m 0))) s' (m_pc_vault m) pw p (m_pc_fees m) /\
    (forall v, token_at (put_data s k (DMarket (set_pc_fees m 0))) v = token_at s v) /\
    purse (signed_by ms) (fun v => v = m_pc_vault m) s s'.
Proof.
  intros W H. destruct (sweep_ran e s ms s' W H) as (k & m & pw & p & spl & KM & SG & HM & FL & PD & TR). pose proof (quiet_put e EO _ _ (DMarket (set_pc_fees m 0)) _ HM) as Q.
  exists k, m, pw, p, spl. split; [assumption|]. split; [assumption|]. split; [exact FL|]. split.
  { apply small_deed; try assumption; [intros y; rewrite (out_D _ _ _ _ _ _ y TR); apply put_mkt_D with (m := m); assumption|destruct m; reflexivity|exact (ws_flags _ W _ _ HM)|discriminate]. }
  split; [assumption|]. split; [exact (send_from_vault_ok e (eo_spl _ EO) _ _ _ _ _ _ TR)|]. split; [exact (qu_tok _ _ Q)|].
  eapply purse_trans; [apply purse_same; exact (qu_tok _ _ Q)|]. eapply purse_out; [exact TR|reflexivity].
Qed.
Lemma close_deed s ms s' : wstruct (D s) -> proc_close e s ms = Ok s' ->
  exists k x w dest m oo oo', map mk ms = [x; w; dest; k] /\ signed ms 1 w /\ deed s s' k m m (Some (x, oo')) /\
    live (D s) k x oo /\ oo_owner oo = w /\ close_core oo = Ok oo' /\ (forall v, token_at s' v = token_at s v) /\
    a_lamports (sget s' x) = 0 /\ (dest <> x -> a_lamports (sget s' dest) = a_lamports (sget s dest) + a_lamports (sget s x)).
Proof.
  intros W H. destruct (close_ran e s ms s' W H) as (k & x & w & dest & m & oo & oo' & sum & KM & SG & HM & LV & OW & CC & DS & CA & E).
  exists k, x, w, dest, m, oo, oo'. split; [assumption|]. split; [assumption|].
  assert (CL : oo_flags oo' = AF_Closed) by (unfold close_core in CC; cbv zeta in CC; repeat (apply rbind_ok in CC; destruct CC as (? & _ & CC)); injection CC as <-; reflexivity).
  set (s0 := put_lamports (put_lamports s dest sum) x 0) in *.
  assert (DL : forall y, D s0 y = D s y) by (intros; unfold s0; rewrite !dexd_lam; reflexivity).
  assert (DX : D s0 x = Some (DOO oo)) by (rewrite DL; exact (proj1 LV)). assert (NK : x <> k) by (intros ->; destruct LV; congruence).
  split; [|split; [assumption|split; [assumption|split; [assumption|]]]].
  - apply small_deed; try assumption; [|apply same_but_refl|exact (ws_flags _ W _ _ HM)|].
    + intros y. subst s'. unfold small. rewrite (dexd_put_owned _ _ _ _ _ _ DX), DL. destruct (Z.eqb_spec y k) as [->|]; [replace (k =? x) with false by lia; exact HM|reflexivity].
    + intros a o [= <- <-]. split; [right; eauto|right; exact CL].
  - subst s'. split; [|split].
    + intros v. rewrite (qu_tok _ _ (quiet_put e EO _ _ (DOO oo') _ DX)). unfold s0. rewrite !token_lam. reflexivity.
    + unfold s0. rewrite sget_put, sget_lam, !Z.eqb_refl. reflexivity.
    + intros N. unfold s0. rewrite sget_put, !sget_lam. replace (dest =? x) with false by lia. rewrite ?Z.eqb_refl. cbn [a_lamports set_lamports].
      unfold cadd in CA. destruct (_ <? _) in CA; [injection CA as <-|discriminate]. reflexivity.
Qed.
Lemma init_oo_deed s c ms s' : wstruct (D s) -> proc_init_oo e c s ms = Ok s' ->
  exists k x w m oo rest, map mk ms = x :: w :: k :: rest /\ signed ms 1 w /\ enabled m /\ deed s s' k m m (Some (x, oo)) /\
    (live (D s) k x oo \/ (D s x = Some DZero /\ (forall a, oo_authority m = Some a -> signed ms 4 a) /\ oo = oo_fresh k w)) /\ oo_owner oo = w /\ (forall v, token_at s' v = token_at s v).
Proof.
  intros W H. destruct (init_oo_ran e s c ms s' W H) as (k & x & w & m & auth & oo & rest & KM & SG & SA & HM & FL & LO & OW & E).
  destruct (oo_touch e s m k x _ _ _ oo W HM LO) as (T & F & MK). exists k, x, w, m, oo, rest. split; [assumption|]. split; [assumption|]. split; [exact FL|].
  assert (NK : x <> k) by (intros ->; destruct T as [T|(? & T & _)]; congruence).
  assert (DX : exists d, D s x = Some d) by (eapply touch_some; exact T). destruct DX as (d & DX). split.
  - apply small_deed; try assumption; [|apply same_but_refl|exact (ws_flags _ W _ _ HM)|].
    + intros y. subst s'. unfold small. rewrite (dexd_put_owned _ _ _ _ _ _ DX). destruct (Z.eqb_spec y k) as [->|]; [replace (k =? x) with false by lia; exact HM|reflexivity].
    + intros a o [= <- <-]. split; [assumption|left; auto].
  - split; [|split; [assumption|subst s'; exact (qu_tok _ _ (quiet_put e EO _ _ _ _ DX))]].
    destruct LO as [LV|(Z1 & Z2 & _ & u & c0 & [= <-] & _ & _ & Z3)]; [auto|right]. split; [assumption|]. split; [intros a EA; apply SA; congruence|]. rewrite Z3, (ws_own _ W _ _ HM). reflexivity.
Qed.

(** Replace: one cancel, then orders, all on the same market and open-orders account *)
Lemma orders_deed c ms k x w ixs : key_at ms 0 = Some k -> key_at ms 1 = Some x -> signed ms 7 w ->
  forall s s' m oo, wstruct (D s) -> D s k = Some (DMarket m) -> live (D s) k x oo -> oo_owner oo = w -> proc_new_orders e c s ixs ms = Ok s' ->
  exists m' oo', (ixs <> [] -> enabled m) /\ m_flags m' = m_flags m /\ deed s s' k m m' (Some (x, oo')) /\ same_id oo oo' /\ purse (signed_by ms) (fun _ => False) s s'.
Proof.
  intros K0 K1 SG. induction ixs as [|ix r IH]; intros s s' m oo W HM LV OW H; cbn [proc_new_orders] in H.
  - injection H as <-. exists m, oo. split; [congruence|]. split; [reflexivity|]. split; [apply deed_refl; try assumption; exact (proj1 LV)|]. split; [repeat split|apply purse_refl].
  - apply rbind_ok in H. destruct H as (s1 & H1 & H). destruct (order_deed _ _ _ _ _ W H1) as (k1 & x1 & w1 & m1 & m1' & o1 & o1' & E0 & E1 & SG1 & EN & FE & DE & LO & OW1 & SI & FO & MO & PU).
    assert (Ek : k1 = k) by congruence. assert (Ex : x1 = x) by congruence. rewrite Ek, Ex in *. clear Ek Ex k1 x1. assert (m1 = m) by (pose proof (de_mkt _ _ _ _ _ _ DE); congruence). subst m1.
    assert (o1 = oo). { destruct LV as (LV & _). destruct LO as [(LO & _)|(LO & _)]; congruence. } subst o1.
    assert (LV1 : live (D s1) k x o1') by (split; [exact (de_at _ _ _ _ _ _ DE _ _ eq_refl)|auto]).
    destruct (IH s1 s' m1' o1' (de_str _ _ _ _ _ _ DE) (de_mkt' _ _ _ _ _ _ DE) LV1 ltac:(destruct SI as (? & ? & ?); congruence) H) as (m2 & o2 & EN2 & F2 & D2 & S2 & P2).
    exists m2, o2. split; [auto|]. split; [congruence|]. split; [eapply deed_trans; eassumption|]. split; [eapply same_id_trans; eassumption|eapply purse_trans; eassumption].
Qed.
Lemma nths_spec {A} (l : list A) is r : nths l is = Some r -> forall j, nth_error r j = match nth_error is j with Some i => nth_error l i | None => None end.
Proof.
  revert r. induction is as [|i is IH]; intros r H j; cbn [nths] in H; [injection H as <-; destruct j; reflexivity|].
  destruct (nth_error l i) as [a|] eqn:E; [|discriminate]. destruct (nths l is) as [t|]; [|discriminate]. injection H as <-. destruct j; cbn [nth_error]; [congruence|]. apply IH. reflexivity.
Qed.
Lemma replace_deed s c ixs ms s' : wstruct (D s) -> proc_replace e c s ixs ms = Ok s' ->
  exists k x w m m' oo oo', key_at ms 0 = Some k /\ key_at ms 1 = Some x /\ signed ms 7 w /\ (ixs <> [] -> enabled m) /\ m_flags m' = m_flags m /\
    deed s s' k m m' (Some (x, oo')) /\ live (D s) k x oo /\ oo_owner oo = w /\ same_id oo oo' /\ purse (signed_by ms) (fun _ => False) s s'.
Proof.
  intros W H. unfold proc_replace in H. apply rbind_ok in H. destruct H as (cms & HC & H). unfold unwrap in HC. destruct (nths ms _) as [l|] eqn:EN in HC; [|discriminate]. injection HC as ->.
  pose proof (nths_spec _ _ _ EN) as NS. apply rbind_ok in H. destruct H as (s1 & H1 & H).
  destruct (cancel_deed _ _ _ _ W H1 ltac:(intros * HH; eapply cancel_cids_frame; exact HH)) as (k & x & w & m & oo & oo1 & K0 & K3 & (a & SN & SE & SS) & DE & LV & OW & SI & TK).
  unfold key_at in K0, K3. rewrite NS in K0, K3, SN. cbn [nth_error] in K0, K3, SN.
  assert (SG : signed ms 7 w) by (exists a; auto). pose proof SI as (I1 & I2 & I3). pose proof LV as (L1 & L2 & L3).
  destruct (orders_deed c ms k x w ixs K0 K3 SG s1 s' m oo1 (de_str _ _ _ _ _ _ DE) (de_mkt' _ _ _ _ _ _ DE)
    ltac:(split; [exact (de_at _ _ _ _ _ _ DE _ _ eq_refl)|split; congruence]) ltac:(congruence) H) as (m2 & o2 & E2 & F2 & D2 & S2 & P2).
  exists k, x, w, m, m2, oo, o2. split; [assumption|]. split; [assumption|]. split; [assumption|]. split; [assumption|]. split; [assumption|].
  split; [eapply deed_trans; eassumption|]. split; [assumption|]. split; [assumption|]. split; [eapply same_id_trans; eassumption|].
  eapply purse_trans; [apply purse_same; exact TK|exact P2].
Qed.

(** Consuming events touches only open-orders accounts it was given *)
Definition cranked (k : Z) (oos : list Z) (s s' : store) : Prop := forall y, D s' y = D s y \/
  (In y oos /\ exists oo oo', live (D s) k y oo /\ D s' y = Some (DOO oo') /\ same_id oo oo').
Lemma consume_loop_deed k m oos n : forall s q s' q', wstruct (D s) -> D s k = Some (DMarket m) -> consume_loop e s m q oos n = Ok (s', q') ->
  wstruct (D s') /\ cranked k oos s s' /\ D s' k = Some (DMarket m) /\ quiet s s'.
Proof.
  induction n as [|n IH]; intros s q s' q' W HM H; cbn [consume_loop] in H.
  - injection H as <- <-. split; [assumption|]. split; [left; reflexivity|]. split; [assumption|apply quiet_refl].
  - apply rbind_ok in H. destruct H as (oev & _ & H). destruct oev as [ev|]; [|injection H as <- <-; split; [assumption|split; [left; reflexivity|split; [assumption|apply quiet_refl]]]].
    apply rbind_ok in H. destruct H as (v & _ & H). destruct (binary_search oos (e_owner ev)) eqn:BS; [|injection H as <- <-; split; [assumption|split; [left; reflexivity|split; [assumption|apply quiet_refl]]]].
    apply rbind_ok in H. destruct H as (oo & HL & H). apply rbind_ok in H. destruct H as (oo' & HE & H). apply rbind_ok in H. destruct H as (r & _ & H). apply rbind_ok in H. destruct H as (r' & _ & H).
    destruct (load_orders_ok e s m k _ _ _ _ _ W HM HL) as [[LV|(_ & _ & _ & ? & ? & F & _)] _]; [|discriminate]. apply consume_event_frame in HE.
    set (x := e_owner ev) in *. assert (T : touchable e s k x) by (right; eauto). pose proof LV as (L1 & L2 & L3). pose proof HE as (I1 & I2 & I3).
    assert (NK : x <> k) by (intros ->; congruence).
    assert (V : forall y, D (put_data s x (DOO oo')) y = small e s k m (Some (x, oo')) y).
    { intros y. unfold small. rewrite (dexd_put_owned _ _ _ _ _ _ L1). destruct (Z.eqb_spec y k) as [->|]; [replace (k =? x) with false by lia; exact HM|reflexivity]. }
    assert (W1 : wstruct (D (put_data s x (DOO oo')))).
    { eapply wstruct_step; [exact W|]. eapply small_dstep with (x := Some (x, oo')); eauto; [apply same_links_refl|exact (ws_flags _ W _ _ HM)|].
      intros a o [= <- <-]. split; [assumption|]. left. split; congruence. }
    destruct (IH _ _ _ _ W1 ltac:(rewrite V; unfold small; rewrite Z.eqb_refl; reflexivity) H) as (W2 & C2 & M2 & Q2).
    split; [assumption|]. split; [|split; [assumption|eapply quiet_trans; [eapply quiet_put; [exact EO|exact L1]|exact Q2]]].
    intros y. destruct (Z.eq_dec y x) as [->|N].
    + right. split; [apply binary_search_sound; exact BS|]. assert (E1 : D (put_data s x (DOO oo')) x = Some (DOO oo')) by (rewrite (dexd_put_owned _ _ _ _ _ _ L1), Z.eqb_refl; reflexivity).
      destruct (C2 x) as [E|(_ & o1 & o2 & (P1 & _) & P2 & P3)]; [exists oo, oo'; rewrite E; auto|]. exists oo, o2. split; [assumption|]. split; [assumption|].
      eapply same_id_trans; [exact HE|]. replace oo' with o1 by congruence. assumption.
    + assert (E1 : D (put_data s x (DOO oo')) y = D s y) by (rewrite (dexd_put_owned _ _ _ _ _ _ L1); replace (y =? x) with false by lia; reflexivity).
      destruct (C2 y) as [E|(I & o1 & o2 & (P1 & P4 & P5) & P2 & P3)]; [left; congruence|]. right. split; [assumption|]. exists o1, o2. split; [split; [congruence|auto]|auto].
Qed.
Lemma consume_deed s k m eqa oos limit s' : wstruct (D s) -> D s k = Some (DMarket m) -> consume_with e s m eqa oos limit = Ok s' ->
  wstruct (D s') /\ D s' k = Some (DMarket m) /\ (forall v, token_at s' v = token_at s v) /\
  (exists q q', D s (m_event_q m) = Some (DEventQ q) /\ D s' (m_event_q m) = Some (DEventQ q')) /\
  forall y, y <> m_event_q m -> D s' y = D s y \/ (In y oos /\ exists oo oo', live (D s) k y oo /\ D s' y = Some (DOO oo') /\ same_id oo oo').
Proof.
  intros W HM H. unfold consume_with in H. apply rbind_ok in H. destruct H as (q & HQ & H). destruct (load_evq_ok e s _ m W HM _ _ HQ) as (EQ & DQ).
  apply rbind_ok in H. destruct H as ([s1 q'] & HL & H). injection H as <-. destruct (consume_loop_deed k m oos _ _ _ _ _ W HM HL) as (W1 & C1 & M1 & Q1).
  subst eqa. assert (DQ1 : D s1 (m_event_q m) = Some (DEventQ q)). { destruct (C1 (m_event_q m)) as [E|(_ & ? & ? & (P1 & _) & _)]; congruence. }
  assert (V : forall y, D (put_data s1 (m_event_q m) (DEventQ q')) y = if y =? m_event_q m then Some (DEventQ q') else D s1 y) by (intros y; apply dexd_put_owned with (d0 := DEventQ q); exact DQ1).
  assert (NK : k <> m_event_q m) by (intros E; rewrite <- E in DQ; congruence).
  assert (HM' : D (put_data s1 (m_event_q m) (DEventQ q')) k = Some (DMarket m)) by (rewrite V; replace (k =? m_event_q m) with false by lia; assumption).
  split; [|split; [assumption|split; [|split]]].
  - eapply wstruct_step; [exact W1|]. instantiate (1 := m). instantiate (1 := m). instantiate (1 := k).
    assert (NE : forall y d, D s1 y = Some d -> (forall q0, d <> DEventQ q0) -> D (put_data s1 (m_event_q m) (DEventQ q')) y = Some d).
    { intros y d Hy Nd. rewrite V. destruct (Z.eqb_spec y (m_event_q m)) as [->|]; [exfalso; apply (Nd q); congruence|assumption]. }
    constructor; try assumption; [apply same_links_refl|exact (ws_flags _ W _ _ HM)| | | | |].
    + intros sl Hs. exists sl. apply NE; [assumption|discriminate].
    + intros sl Hs. exists sl. apply NE; [assumption|discriminate].
    + intros sl Hs. exists sl. apply NE; [assumption|discriminate].
    + intros q0 _. exists q'. rewrite V, Z.eqb_refl. reflexivity.
    + intros y _ _ _ _ N5. left. rewrite V. replace (y =? m_event_q m) with false by lia. reflexivity.
  - exact (qu_tok _ _ (quiet_trans _ _ _ Q1 (quiet_put e EO _ _ _ _ DQ1))).
  - exists q, q'. split; [assumption|]. rewrite V, Z.eqb_refl. reflexivity.
  - intros y N. rewrite V. replace (y =? m_event_q m) with false by lia. apply C1.
Qed.

(** ** All instructions *)
Definition needs_open (i : instr) : bool :=
  match i with INewOrderV3 _ | ISendTake _ | IInitOO | IReplaceOne _ | IReplaceMany (_ :: _) => true | _ => false end.
Definition pays_out (i : instr) : bool := match i with ISettleFunds | ISendTake _ => true | _ => false end.
Inductive act (s s' : store) (i : instr) (ms : list meta) : Prop :=
| act_none n : i = IMatchOrders n -> s' = s -> act s s' i ms
| act_init ix : i = IInitMarket ix -> wstruct (D s') -> (forall y d, D s y = Some d -> d <> DZero -> D s' y = Some d) ->
    (forall y oo, D s' y = Some (DOO oo) -> D s y = Some (DOO oo)) -> (forall v, token_at s' v = token_at s v) -> act s s' i ms
| act_crank n k m : (i = IConsumeEvents n /\ crank_authority m = None) \/ (i = IConsumePermissioned n /\ exists a, crank_authority m = Some a /\ signed_by ms a) ->
    In k (map mk ms) -> wstruct (D s') -> D s k = Some (DMarket m) -> D s' k = Some (DMarket m) -> (forall v, token_at s' v = token_at s v) ->
    (exists q q', D s (m_event_q m) = Some (DEventQ q) /\ D s' (m_event_q m) = Some (DEventQ q')) ->
    (forall y, y <> m_event_q m -> D s' y = D s y \/ (In y (map mk ms) /\ exists oo oo', live (D s) k y oo /\ D s' y = Some (DOO oo') /\ same_id oo oo')) -> act s s' i ms
| act_user k m m' x oo oo' : deed s s' k m m' (Some (x, oo')) -> In k (map mk ms) -> In x (map mk ms) ->
    live (D s) k x oo \/ (D s x = Some DZero /\ needs_open i = true /\ oo = oo_fresh k (oo_owner oo) /\ (oo_authority m = None \/ (i = IInitOO /\ exists a, oo_authority m = Some a /\ signed_by ms a))) ->
    signed_by ms (oo_owner oo) -> oo_owner oo' = oo_owner oo /\ oo_market oo' = oo_market oo ->
    oo_flags oo' = oo_flags oo \/ (i = ICloseOO /\ live (D s) k x oo /\ close_core oo = Ok oo') -> m_flags m' = m_flags m -> (needs_open i = true -> enabled m) ->
    purse (signed_by ms) (fun v => pays_out i = true /\ key_at ms 0 = Some k /\ (v = m_coin_vault m \/ v = m_pc_vault m)) s s' -> act s s' i ms
| act_prune n k m x oo oo' a : i = IPrune n -> deed s s' k m m (Some (x, oo')) -> In x (map mk ms) -> live (D s) k x oo -> same_id oo oo' ->
    prune_authority m = Some a -> signed_by ms a -> enabled m -> (forall v, token_at s' v = token_at s v) -> act s s' i ms
| act_take ix k m m' : i = ISendTake ix -> key_at ms 0 = Some k -> deed s s' k m m' None -> m_flags m' = m_flags m -> enabled m ->
    purse (signed_by ms) (fun v => v = m_coin_vault m \/ v = m_pc_vault m) s s' -> act s s' i ms
| act_disable k m : i = IDisableMarket -> deed s s' k m (set_flags m (Z.lor (m_flags m) AF_Disabled)) None -> signed_by ms disable_authority -> enabled m ->
    (forall v, token_at s' v = token_at s v) -> act s s' i ms
| act_sweep k m : i = ISweepFees -> key_at ms 0 = Some k -> deed s s' k m (set_pc_fees m 0) None -> signed_by ms fee_sweeper -> enabled m ->
    purse (signed_by ms) (fun v => v = m_pc_vault m) s s' -> act s s' i ms.

Lemma key_in ms i x : key_at ms i = Some x -> In x (map mk ms).
Proof. unfold key_at. rewrite <- nth_error_map. apply nth_error_In. Qed.
Lemma in_rev {A} (l : list meta) r (x : A) (f : meta -> A) : rev l = r -> In x (map f r) -> In x (map f l).
Proof. intros <- H. rewrite map_rev in H. apply in_rev in H. exact H. Qed.
Lemma cancel_act s core i ms s' : wstruct (D s) -> proc_cancel e s core ms = Ok s' ->
  (forall o x oo o' oo', core o x oo = Ok (o', oo') -> ob_mkt o' = ob_mkt o /\ same_id oo oo') -> needs_open i = false -> act s s' i ms.
Proof.
  intros W H FR NT. destruct (cancel_deed _ _ _ _ W H FR) as (k & x & w & m & oo & oo' & K0 & K3 & SG & DE & LV & OW & (I1 & I2 & I3) & TK).
  eapply act_user with (oo := oo); eauto using key_in; [rewrite OW; eapply signed_by_at; eassumption|rewrite NT; discriminate|apply purse_same; exact TK].
Qed.
Lemma replace_act s c ixs i ms s' : wstruct (D s) -> proc_replace e c s ixs ms = Ok s' -> (needs_open i = true -> ixs <> []) -> act s s' i ms.
Proof.
  intros W H NT. destruct (replace_deed _ _ _ _ _ W H) as (k & x & w & m & m' & oo & oo' & K0 & K1 & SG & EN & FE & DE & LV & OW & (I1 & I2 & I3) & PU).
  eapply act_user with (oo := oo); eauto using key_in; [rewrite OW; eapply signed_by_at; eassumption|]. eapply purse_weak; [| |exact PU]; [auto|intros ? []].
Qed.
Theorem process_act c s i ms s' : wstruct (D s) -> process e c s i ms = Ok s' -> act s s' i ms.
Proof.
  intros W H. destruct i; cbn [process] in H; try discriminate.
  - destruct (init_ran e _ _ _ _ _ H) as (k & rqa & eqa & ba & aa & cv & pv & cm & pm & p & auths & R). eapply act_init; [reflexivity|eapply in_struct; eassumption| | |].
    + intros. eapply in_kept; eassumption.
    + intros y oo HY. exact (proj1 (in_was_oo e EO _ _ _ _ _ _ _ _ _ _ _ _ _ _ _ R y oo) HY).
    + destruct (in_view e EO _ _ _ _ _ _ _ _ _ _ _ _ _ _ _ R) as [_ Q]. exact (qu_tok _ _ Q).
  - injection H as <-. eapply act_none; reflexivity.
  - unfold proc_consume in H. destruct (rev ms) as [|z1 [|z2 [|eqa [|mkt [|z3 z4]]]]] eqn:ER; try discriminate. apply rbind_ok in H. destruct H as (m & HM & H). apply rbind_ok in H. destruct H as (? & HC & H).
    apply load_market_ok in HM. destruct HM as [HM _]. apply check_ok in HC. destruct (consume_deed _ _ _ _ _ _ _ W HM H) as (W' & HM' & TK & QQ & V).
    eapply act_crank with (k := mk mkt); eauto.
    + left. split; [reflexivity|]. destruct (crank_authority m); [discriminate|reflexivity].
    + eapply in_rev; [exact ER|]. cbn [map In]. auto.
    + intros y N. destruct (V y N) as [E|(I & G)]; [auto|right]. split; [|exact G]. eapply in_rev; [exact ER|]. cbn [map In]. do 4 right. rewrite map_rev in I. apply List.in_rev in I. exact I.
  - destruct (settle_deed _ _ _ W H) as (k & x & w & m & m' & oo & oo' & K0 & K1 & SG & FE & DE & LV & OW & (I1 & I2 & I3) & PU).
    eapply act_user with (oo := oo); eauto using key_in; [rewrite OW; eapply signed_by_at; eassumption|discriminate|]. eapply purse_weak; [| |exact PU]; cbn [pays_out]; auto.
  - destruct (disable_deed _ _ _ W H) as (k & m & K0 & SG & EN & DE & _ & TK). eapply act_disable; eauto. eapply signed_by_at; eassumption.
  - destruct (sweep_deed _ _ _ W H) as (k & m & pw & p & spl & KM & SG & EN & DE & _ & _ & _ & PU). eapply act_sweep; eauto; [rewrite (key_map _ _ _ KM); reflexivity|eapply signed_by_at; eassumption].
  - destruct (order_deed _ _ _ _ _ W H) as (k & x & w & m & m' & oo & oo' & K0 & K1 & SG & EN & FE & DE & LO & OW & (I1 & I2 & I3) & FO & MO & PU).
    eapply act_user with (oo := oo); eauto using key_in.
    + destruct LO as [LO|(Z1 & Z2 & Z3)]; [auto|right]. rewrite OW. auto 6.
    + rewrite OW. eapply signed_by_at; eassumption.
    + eapply purse_weak; [| |exact PU]; [auto|intros ? []].
  - eapply cancel_act; [exact W|exact H| |reflexivity]. cbv beta. intros * HH. eapply cancel_v2_frame. exact HH.
  - unfold proc_cancel_cid in H. apply rbind_ok in H. destruct H as (? & _ & H). eapply cancel_act; [exact W|exact H| |reflexivity]. cbv beta. intros * HH. eapply cancel_cid_frame. exact HH.
  - destruct (take_deed _ _ _ _ W H) as (k & m & m' & K0 & EN & FE & DE & PU). eapply act_take; eauto.
  - destruct (close_deed _ _ _ W H) as (k & x & w & dest & m & oo & oo' & KM & SG & DE & LV & OW & CC & TK & _).
    eapply act_user with (oo := oo); eauto.
    + rewrite KM. cbn [In]. auto.
    + rewrite KM. cbn [In]. auto.
    + rewrite OW. eapply signed_by_at; eassumption.
    + unfold close_core in CC; cbv zeta in CC; repeat (apply rbind_ok in CC; destruct CC as (? & _ & CC)); injection CC as <-. split; reflexivity.
    + discriminate.
    + apply purse_same. exact TK.
  - destruct (init_oo_deed _ _ _ _ W H) as (k & x & w & m & oo & rest & KM & SG & EN & DE & LO & OW & TK).
    eapply act_user with (oo := oo); eauto.
    + rewrite KM. cbn [In]. auto.
    + rewrite KM. cbn [In]. auto.
    + destruct LO as [LO|(Z1 & Z2 & Z3)]; [auto|right]. rewrite OW. split; [assumption|]. split; [reflexivity|]. split; [assumption|]. destruct (oo_authority m) as [a|] eqn:EA; [right|auto].
      split; [reflexivity|]. exists a. split; [reflexivity|]. eapply signed_by_at. apply Z2. reflexivity.
    + rewrite OW. eapply signed_by_at; eassumption.
    + apply purse_same. exact TK.
  - destruct (prune_deed _ _ _ _ W H) as (k & x & auth & m & oo & oo' & K0 & K4 & SG & PA & EN & DE & LV & SI & TK). eapply act_prune; eauto using key_in. eapply signed_by_at; eassumption.
  - unfold proc_consume_perm in H. destruct (rev ms) as [|z1 [|eqa [|mkt [|z3 z4]]]] eqn:ER; try discriminate. apply rbind_ok in H. destruct H as (m & HM & H). apply rbind_ok in H. destruct H as (? & HS & H).
    apply rbind_ok in H. destruct H as (? & HC & H). unfold check_signer in HS. apply check_ok in HS, HC. apply opt_eqb_eq in HC.
    apply load_market_ok in HM. destruct HM as [HM _]. destruct (consume_deed _ _ _ _ _ _ _ W HM H) as (W' & HM' & TK & QQ & V).
    eapply act_crank with (k := mk mkt); eauto.
    + right. split; [reflexivity|]. exists (mk z1). split; [assumption|]. exists z1. split; [|auto]. apply List.in_rev. rewrite ER. left. reflexivity.
    + eapply in_rev; [exact ER|]. cbn [map In]. auto.
    + intros y N. destruct (V y N) as [E|(I & G)]; [auto|right]. split; [|exact G]. eapply in_rev; [exact ER|]. cbn [map In]. do 3 right. rewrite map_rev in I. apply List.in_rev in I. exact I.
  - eapply cancel_act; [exact W|exact H| |reflexivity]. cbv beta. intros * HH. eapply cancel_cids_frame. exact HH.
  - eapply replace_act; [exact W|exact H|discriminate].
  - eapply replace_act; [exact W|exact H|]. destruct ixs; [discriminate|discriminate].
Qed.
Lemma act_struct s s' i ms : wstruct (D s) -> act s s' i ms -> wstruct (D s').
Proof. intros W H. destruct H; try assumption; try (eapply de_str; eassumption). subst. assumption. Qed.
End Auth.
