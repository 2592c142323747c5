(** The invariant of all histories, and when one instruction on one market keeps it. *)
From Coq Require Import Permutation.
From Verif Require Import Base BaseProofs Fees ListSum Queue QueueProofs Codec CodecProofs Critbit CritbitSlab Market Matching
  MatchSteps MatchRefine MatchAsk MatchBid MatchRun MatchSpec Ledger LedgerSteps LedgerRun Slots Core CoreInv CoreNew CoreCancel CoreConsume CoreSettle Instr InstrProofs
  Store Process StoreProofs World.

Section Inv.
Variable e : env.
Hypothesis EO : env_ok e.
Notation D := (dexd e).

(** ** Structure of the dex's accounts; [d] is what the dex sees *)
Record wstruct (d : Z -> option adata) : Prop := mkWs {
  ws_own : forall k m, d k = Some (DMarket m) -> m_own m = k;
  ws_flags : forall k m, d k = Some (DMarket m) -> check_market_flags (m_flags m) true = Ok tt;
  ws_bids : forall k m, d k = Some (DMarket m) -> m_bids m <> m_asks m -> exists sl, d (m_bids m) = Some (DSlab Bid sl);
  ws_asks : forall k m, d k = Some (DMarket m) -> exists sl, d (m_asks m) = Some (DSlab Ask sl);
  ws_req : forall k m, d k = Some (DMarket m) -> exists rq, d (m_req_q m) = Some (DReqQ rq);
  ws_evq : forall k m, d k = Some (DMarket m) -> exists q, d (m_event_q m) = Some (DEventQ q);
  ws_inj : forall k1 m1 k2 m2, d k1 = Some (DMarket m1) -> d k2 = Some (DMarket m2) -> k1 <> k2 ->
    m_bids m1 <> m_bids m2 /\ m_asks m1 <> m_asks m2 /\ m_req_q m1 <> m_req_q m2 /\ m_event_q m1 <> m_event_q m2;
  ws_oo : forall x oo, d x = Some (DOO oo) ->
    (oo_flags oo = OO_FLAGS /\ exists m, d (oo_market oo) = Some (DMarket m)) \/ oo_flags oo = AF_Closed;
  ws_zero : d 0 = None
}.
(** The live open-orders accounts of market [k]. *)
Definition live (d : Z -> option adata) (k x : Z) (oo : open_orders) : Prop :=
  d x = Some (DOO oo) /\ oo_flags oo = OO_FLAGS /\ oo_market oo = k.
Definition lists (d : Z -> option adata) (k : Z) (L : list acct) : Prop :=
  NoDup (map fst L) /\ forall x oo, In (x, oo) L <-> live d k x oo.
(** Markets with positive lots and two different books; others are unusable. *)
Definition proper (m : market) : Prop := 0 < m_coin_lot m /\ 0 < m_pc_lot m /\ m_bids m <> m_asks m.
Record mstate (d : Z -> option adata) (k : Z) (m : market) (seq : Z) (L : list acct) (A : astate) (o : obs) : Prop := mkMs {
  ms_mkt : ob_mkt o = m;
  ms_bids : d (m_bids m) = Some (DSlab Bid (ob_bids o));
  ms_asks : d (m_asks m) = Some (DSlab Ask (ob_asks o));
  ms_evq : d (m_event_q m) = Some (DEventQ (ob_eq o));
  ms_req : d (m_req_q m) = Some (DReqQ (0, seq));
  ms_lists : lists d k L;
  ms_inv : cinv o seq L A
}.
Definition wmarkets (d : Z -> option adata) : Prop := forall k m, d k = Some (DMarket m) -> proper m ->
  exists seq L A o, mstate d k m seq L A o.

(** ** Vaults *)
Definition need (m : market) (v : Z) : Z :=
  (if v =? m_coin_vault m then m_coin_deposits m else 0) + (if v =? m_pc_vault m then pc_owed m else 0).
Record vault_ok (s : store) (k : Z) (m : market) (v mint : Z) (t : token) : Prop := mkVo {
  vo_tok : token_at s v = Some t; vo_len : a_len (sget s v) = 165;
  vo_own : e_pda e (m_nonce m) k = Some (t_owner t); vo_lock : locked_token t;
  vo_mint : t_mint t = mint; vo_need : proper m -> need m v <= t_amount t
}.
Record wvaults (s : store) : Prop := mkWv {
  wv_amt : amounts_ok s;
  wv_coin : forall k m, D s k = Some (DMarket m) -> exists t, vault_ok s k m (m_coin_vault m) (m_coin_mint m) t;
  wv_pc : forall k m, D s k = Some (DMarket m) -> exists t, vault_ok s k m (m_pc_vault m) (m_pc_mint m) t
}.
Record winv (s : store) : Prop := mkWinv { wi_str : wstruct (D s); wi_mkt : wmarkets (D s); wi_vlt : wvaults s }.

(** ** One market's accounts change *)
Definition same_links (m m' : market) : Prop :=
  m_own m' = m_own m /\ m_nonce m' = m_nonce m /\ m_bids m' = m_bids m /\ m_asks m' = m_asks m /\ m_req_q m' = m_req_q m /\
  m_event_q m' = m_event_q m /\ m_coin_vault m' = m_coin_vault m /\ m_pc_vault m' = m_pc_vault m /\
  m_coin_mint m' = m_coin_mint m /\ m_pc_mint m' = m_pc_mint m /\ m_coin_lot m' = m_coin_lot m /\ m_pc_lot m' = m_pc_lot m.
Record dstep (d d' : Z -> option adata) (k : Z) (m m' : market) : Prop := mkDs {
  ds_mkt : d k = Some (DMarket m); ds_mkt' : d' k = Some (DMarket m');
  ds_links : same_links m m'; ds_flags : check_market_flags (m_flags m') true = Ok tt;
  ds_bids : forall sl, d (m_bids m) = Some (DSlab Bid sl) -> exists sl', d' (m_bids m) = Some (DSlab Bid sl');
  ds_asks : forall sl, d (m_asks m) = Some (DSlab Ask sl) -> exists sl', d' (m_asks m) = Some (DSlab Ask sl');
  ds_req : forall q, d (m_req_q m) = Some (DReqQ q) -> exists q', d' (m_req_q m) = Some (DReqQ q');
  ds_evq : forall q, d (m_event_q m) = Some (DEventQ q) -> exists q', d' (m_event_q m) = Some (DEventQ q');
  ds_else : forall x, x <> k -> x <> m_bids m -> x <> m_asks m -> x <> m_req_q m -> x <> m_event_q m ->
    d' x = d x \/
    ((d x = Some DZero \/ exists oo, live d k x oo) /\
     exists oo', d' x = Some (DOO oo') /\ ((oo_flags oo' = OO_FLAGS /\ oo_market oo' = k) \/ oo_flags oo' = AF_Closed))
}.
Ltac inv H := inversion H; subst; clear H.
Section Step.
Variables (d d' : Z -> option adata) (k : Z) (m m' : market).
Hypothesis (W : wstruct d) (S : dstep d d' k m m').
Let SM := ds_mkt _ _ _ _ _ S.
(** Data of the market's own accounts, by kind. *)
Lemma st_asks : exists sl, d (m_asks m) = Some (DSlab Ask sl). Proof. exact (ws_asks _ W k m SM). Qed.
Lemma st_bids_kind : exists sd sl, d (m_bids m) = Some (DSlab sd sl).
Proof.
  destruct (Z.eq_dec (m_bids m) (m_asks m)) as [E|N].
  - destruct st_asks as (sl & H). exists Ask, sl. rewrite E. exact H.
  - destruct (ws_bids _ W k m SM N) as (sl & H). eauto.
Qed.
Lemma other_market x mx : d x = Some (DMarket mx) -> x <> k -> d' x = d x.
Proof.
  intros H N. destruct st_bids_kind as (? & ? & HB). destruct st_asks as (? & HA).
  destruct (ws_req _ W k m SM) as (? & HR). destruct (ws_evq _ W k m SM) as (? & HE).
  destruct (ds_else _ _ _ _ _ S x N) as [E|[[E|(oo & E & _)] _]]; try congruence; intros E; subst x; congruence.
Qed.
Lemma market_was x mx : d' x = Some (DMarket mx) -> x <> k -> d x = Some (DMarket mx).
Proof.
  intros H N.
  destruct (Z.eq_dec x (m_bids m)) as [->|N1].
  { exfalso. destruct (Z.eq_dec (m_bids m) (m_asks m)) as [E|NE].
    - rewrite E in H. destruct st_asks as (sl & HA). destruct (ds_asks _ _ _ _ _ S _ HA). congruence.
    - destruct (ws_bids _ W k m SM NE) as (sl & HB). destruct (ds_bids _ _ _ _ _ S _ HB). congruence. }
  destruct (Z.eq_dec x (m_asks m)) as [->|N2]; [exfalso; destruct st_asks as (sl & HA); destruct (ds_asks _ _ _ _ _ S _ HA); congruence|].
  destruct (Z.eq_dec x (m_req_q m)) as [->|N3]; [exfalso; destruct (ws_req _ W k m SM) as (? & HR); destruct (ds_req _ _ _ _ _ S _ HR); congruence|].
  destruct (Z.eq_dec x (m_event_q m)) as [->|N4]; [exfalso; destruct (ws_evq _ W k m SM) as (? & HR); destruct (ds_evq _ _ _ _ _ S _ HR); congruence|].
  destruct (ds_else _ _ _ _ _ S x N N1 N2 N3 N4) as [E|[_ (oo & E & _)]]; congruence.
Qed.
(** The linked accounts of another market are untouched. *)
Lemma other_links x mx : d x = Some (DMarket mx) -> x <> k ->
  (m_bids mx <> m_asks mx -> d' (m_bids mx) = d (m_bids mx)) /\ d' (m_asks mx) = d (m_asks mx) /\
  d' (m_req_q mx) = d (m_req_q mx) /\ d' (m_event_q mx) = d (m_event_q mx).
Proof.
  intros H N. destruct (ws_inj _ W _ _ _ _ H SM N) as (I1 & I2 & I3 & I4).
  destruct st_bids_kind as (sd & slb & HB). destruct st_asks as (? & HA). destruct (ws_req _ W k m SM) as (? & HR). destruct (ws_evq _ W k m SM) as (? & HE).
  destruct (ws_asks _ W x mx H) as (? & XA). destruct (ws_req _ W x mx H) as (? & XR). destruct (ws_evq _ W x mx H) as (? & XE).
  assert (G : forall y dy, d y = Some dy -> (forall mm, dy <> DMarket mm) -> dy <> DZero -> (forall oo, dy <> DOO oo) ->
    y <> m_bids m -> y <> m_asks m -> y <> m_req_q m -> y <> m_event_q m -> d' y = d y).
  { intros y dy Hy Z1 Z2 Z3 Y1 Y2 Y3 Y4. assert (y <> k) by (intros ->; rewrite SM in Hy; injection Hy as <-; eapply Z1; reflexivity).
    destruct (ds_else _ _ _ _ _ S y) as [E|[[E|(oo & E & _)] _]]; try assumption; exfalso; [apply Z2|apply (Z3 oo)]; congruence. }
  split; [|split; [|split]].
  - intros NB. destruct (ws_bids _ W x mx H NB) as (? & XB). eapply G; try exact XB; try congruence.
  - eapply G; try exact XA; try congruence.
    destruct (Z.eq_dec (m_bids m) (m_asks m)) as [E|NE]; [rewrite E; assumption|].
    destruct (ws_bids _ W k m SM NE) as (? & HB'). congruence.
  - eapply G; try exact XR; congruence.
  - eapply G; try exact XE; congruence.
Qed.
Lemma live_other k2 x oo : k2 <> k -> live d' k2 x oo <-> live d k2 x oo.
Proof.
  intros N. assert (G : (exists oo', d x = Some (DOO oo')) \/ (exists oo', d' x = Some (DOO oo')) -> d' x = d x \/
     ((d x = Some DZero \/ exists oo, live d k x oo) /\
     exists oo', d' x = Some (DOO oo') /\ ((oo_flags oo' = OO_FLAGS /\ oo_market oo' = k) \/ oo_flags oo' = AF_Closed))).
  { intros O. destruct st_bids_kind as (sd & slb & HB). destruct st_asks as (? & HA). destruct (ws_req _ W k m SM) as (? & HR). destruct (ws_evq _ W k m SM) as (? & HE).
    assert (HB' : exists sd' sl', d' (m_bids m) = Some (DSlab sd' sl')).
    { destruct (Z.eq_dec (m_bids m) (m_asks m)) as [E|NE].
      - rewrite E. destruct (ds_asks _ _ _ _ _ S _ HA); eauto.
      - destruct (ws_bids _ W k m SM NE) as (sl & HB1). destruct (ds_bids _ _ _ _ _ S _ HB1); eauto. }
    destruct HB' as (? & ? & HB'). destruct (ds_asks _ _ _ _ _ S _ HA) as (? & HA'). destruct (ds_req _ _ _ _ _ S _ HR) as (? & HR'). destruct (ds_evq _ _ _ _ _ S _ HE) as (? & HE').
    pose proof (ds_mkt' _ _ _ _ _ S) as SM'.
    apply (ds_else _ _ _ _ _ S); intros ->; destruct O as [[? O]|[? O]]; congruence. }
  unfold live. split; intros (E1 & E2 & E3); destruct (G ltac:(eauto)) as [E|[[E|(oo0 & E & F1 & F2)] (oo' & E' & F)]]; try congruence.
  - rewrite E in E1. auto.
  - exfalso. rewrite E' in E1. injection E1 as ->. destruct F as [[? ?]|F]; [congruence|]. rewrite F in E2. discriminate.
  - exfalso. rewrite E' in E1. injection E1 as ->. destruct F as [[? ?]|F]; [congruence|]. rewrite F in E2. discriminate.
  - rewrite E. auto.
Qed.
Lemma wstruct_step : wstruct d'.
Proof.
  pose proof (ds_mkt' _ _ _ _ _ S) as SM'. destruct (ds_links _ _ _ _ _ S) as (l1 & l2 & l3 & l4 & l5 & l6 & _).
  assert (MK : forall x mx, d' x = Some (DMarket mx) -> (x = k /\ mx = m') \/ (x <> k /\ d x = Some (DMarket mx))).
  { intros x mx H. destruct (Z.eq_dec x k) as [->|N]; [left; split; congruence|right; split; [assumption|eapply market_was; eassumption]]. }
  constructor.
  - intros x mx H. destruct (MK x mx H) as [[-> ->]|[N H']]; [rewrite l1; eapply ws_own; eassumption|eapply ws_own; eassumption].
  - intros x mx H. destruct (MK x mx H) as [[-> ->]|[N H']]; [exact (ds_flags _ _ _ _ _ S)|eapply ws_flags; eassumption].
  - intros x mx H NE. destruct (MK x mx H) as [[-> ->]|[N H']].
    + rewrite l3, l4 in *. destruct (ws_bids _ W k m SM NE) as (? & HB). exact (ds_bids _ _ _ _ _ S _ HB).
    + rewrite (proj1 (other_links x mx H' N) NE). exact (ws_bids _ W x mx H' NE).
  - intros x mx H. destruct (MK x mx H) as [[-> ->]|[N H']].
    + rewrite l4. destruct (ws_asks _ W k m SM) as (? & HB). exact (ds_asks _ _ _ _ _ S _ HB).
    + destruct (other_links x mx H' N) as (_ & -> & _). exact (ws_asks _ W x mx H').
  - intros x mx H. destruct (MK x mx H) as [[-> ->]|[N H']].
    + rewrite l5. destruct (ws_req _ W k m SM) as (? & HB). exact (ds_req _ _ _ _ _ S _ HB).
    + destruct (other_links x mx H' N) as (_ & _ & -> & _). exact (ws_req _ W x mx H').
  - intros x mx H. destruct (MK x mx H) as [[-> ->]|[N H']].
    + rewrite l6. destruct (ws_evq _ W k m SM) as (? & HB). exact (ds_evq _ _ _ _ _ S _ HB).
    + destruct (other_links x mx H' N) as (_ & _ & _ & ->). exact (ws_evq _ W x mx H').
  - intros k1 m1 k2 m2 H1 H2 N.
    destruct (MK _ _ H1) as [[-> ->]|[N1 H1']]; destruct (MK _ _ H2) as [[-> ->]|[N2 H2']]; try congruence; rewrite ?l3, ?l4, ?l5, ?l6; eapply (ws_inj _ W); eassumption.
  - intros x oo H.
    assert (C : d x = Some (DOO oo) \/ ((oo_flags oo = OO_FLAGS /\ oo_market oo = k) \/ oo_flags oo = AF_Closed)).
    { destruct (Z.eq_dec x k) as [->|N]; [congruence|].
      destruct (Z.eq_dec x (m_bids m)) as [->|N1].
      { exfalso. destruct (Z.eq_dec (m_bids m) (m_asks m)) as [E|NE].
        - rewrite E in H. destruct st_asks as (sl & HA). destruct (ds_asks _ _ _ _ _ S _ HA). congruence.
        - destruct (ws_bids _ W k m SM NE) as (sl & HB). destruct (ds_bids _ _ _ _ _ S _ HB). congruence. }
      destruct (Z.eq_dec x (m_asks m)) as [->|N2]; [exfalso; destruct st_asks as (sl & HA); destruct (ds_asks _ _ _ _ _ S _ HA); congruence|].
      destruct (Z.eq_dec x (m_req_q m)) as [->|N3]; [exfalso; destruct (ws_req _ W k m SM) as (? & HR); destruct (ds_req _ _ _ _ _ S _ HR); congruence|].
      destruct (Z.eq_dec x (m_event_q m)) as [->|N4]; [exfalso; destruct (ws_evq _ W k m SM) as (? & HR); destruct (ds_evq _ _ _ _ _ S _ HR); congruence|].
      destruct (ds_else _ _ _ _ _ S x N N1 N2 N3 N4) as [E|[_ (oo' & E & F)]]; [left; congruence|].
      right. rewrite H in E. injection E as ->. exact F. }
    destruct C as [C|[[C1 C2]|C]]; [|left; split; [assumption|rewrite C2; eauto]|right; assumption].
    destruct (ws_oo _ W x oo C) as [[F (mm & G)]|F]; [|right; assumption]. left. split; [assumption|].
    destruct (Z.eq_dec (oo_market oo) k) as [->|N]; [eauto|]. exists mm. rewrite (other_market _ _ G N). assumption.
  - pose proof (ws_zero _ W) as Z0. destruct st_bids_kind as (sd & slb & HB). destruct st_asks as (? & HA). destruct (ws_req _ W k m SM) as (? & HR). destruct (ws_evq _ W k m SM) as (? & HE).
    destruct (ds_else _ _ _ _ _ S 0) as [E|[[E|(oo & E & _)] _]]; try congruence; intros <-; congruence.
Qed.
Lemma mstate_other x mx seq L A o : x <> k -> d x = Some (DMarket mx) -> proper mx -> mstate d x mx seq L A o -> mstate d' x mx seq L A o.
Proof.
  intros N H (_ & _ & P) []. destruct (other_links x mx H N) as (G1 & G2 & G3 & G4).
  constructor; try assumption.
  - rewrite G1; assumption.
  - rewrite G2; assumption.
  - rewrite G4; assumption.
  - rewrite G3; assumption.
  - destruct ms_lists0 as [L1 L2]. split; [assumption|]. intros y oo. rewrite (live_other x y oo N). apply L2.
Qed.
Lemma wmarkets_step : wmarkets d -> (proper m' -> exists seq L A o, mstate d' k m' seq L A o) -> wmarkets d'.
Proof.
  intros WM H x mx HX P. destruct (Z.eq_dec x k) as [->|N].
  - rewrite (ds_mkt' _ _ _ _ _ S) in HX. injection HX as <-. auto.
  - pose proof (market_was x mx HX N) as HX'. destruct (WM x mx HX' P) as (seq & L & A & o & M). exists seq, L, A, o. apply mstate_other; assumption.
Qed.
End Step.

(** ** Token balances: lower bounds on the change of accounts only their owner can debit *)
Definition tdelta (s s' : store) (f : Z -> Z -> Z) : Prop := forall x t, token_at s x = Some t -> locked_token t ->
  exists t', token_at s' x = Some t' /\ t_owner t' = t_owner t /\ t_mint t' = t_mint t /\ locked_token t' /\
    a_len (sget s' x) = a_len (sget s x) /\ t_amount t + f x (t_owner t) <= t_amount t'.
Lemma tdelta_refl s s' : (forall x, token_at s' x = token_at s x) -> (forall x, a_len (sget s' x) = a_len (sget s x)) ->
  tdelta s s' (fun _ _ => 0).
Proof. intros H1 H2 x t H L. exists t. rewrite H1, H2. repeat (split; [auto|]). lia. Qed.
Lemma tdelta_trans a b c f g : tdelta a b f -> tdelta b c g -> tdelta a c (fun x w => f x w + g x w).
Proof.
  intros H1 H2 x t H L. destruct (H1 x t H L) as (t1 & T1 & O1 & M1 & L1 & N1 & A1). destruct (H2 x t1 T1 L1) as (t2 & T2 & O2 & M2 & L2 & N2 & A2).
  exists t2. rewrite O1 in A2. split; [assumption|]. split; [congruence|]. split; [congruence|]. split; [assumption|]. split; [congruence|lia].
Qed.
Lemma tdelta_weak a b f g : (forall x w, g x w <= f x w) -> tdelta a b f -> tdelta a b g.
Proof. intros H H1 x t HT L. destruct (H1 x t HT L) as (t' & P1 & P2 & P3 & P4 & P5 & P6). exists t'. specialize (H x (t_owner t)). repeat (split; [assumption|]). lia. Qed.
Definition moved (src dst auth amt x w : Z) : Z :=
  (if x =? dst then amt else 0) - (if (x =? src) && (w =? auth) then amt else 0).
Lemma transferred_tdelta s s' src dst auth amt : transferred e s s' src dst auth amt -> tdelta s s' (moved src dst auth amt).
Proof.
  intros [_ _ TL _ _ (ts & td & T1 & T2 & T3 & _ & _ & T4 & T5 & T6)] x t H L. unfold moved.
  assert (SRC : x = src -> t = ts /\ t_owner ts = auth /\ is_delegate ts auth = false).
  { intros ->. rewrite T1 in H. injection H as ->. destruct L as [L _]. unfold is_delegate in *. rewrite L in *. destruct T5 as [T5|T5]; [discriminate|]. auto. }
  destruct (Z.eqb_spec src dst) as [E|N].
  - subst s'. exists t. repeat (split; [auto|]). subst dst. destruct (Z.eqb_spec x src) as [E|N]; [|cbn [andb]; lia].
    destruct (SRC E) as (-> & -> & _). rewrite Z.eqb_refl. cbn [andb]. lia.
  - destruct T6 as [T6 T7]. rewrite T7. destruct (Z.eqb_spec x dst) as [ED|ND].
    + subst x. rewrite T2 in H. injection H as ->. exists (set_amount t (t_amount t + amt)). rewrite TL. replace (dst =? src) with false by lia.
      repeat (split; [auto|]). cbn [andb set_amount t_amount]. lia.
    + destruct (Z.eqb_spec x src) as [ES|NS].
      * destruct (SRC ES) as (-> & OW & DE). rewrite DE, TL. exists (set_amount ts (t_amount ts - amt)). rewrite OW, Z.eqb_refl.
        repeat (split; [auto|]). cbn [andb set_amount t_amount]. lia.
      * exists t. rewrite TL. repeat (split; [auto|]). cbn [andb]. lia.
Qed.
Lemma transferred_amounts s s' src dst auth amt : transferred e s s' src dst auth amt -> amounts_ok s -> amounts_ok s'.
Proof.
  intros [HA _ _ _ _ (ts & td & T1 & T2 & T3 & _ & _ & T4 & T5 & T6)] AM x t H.
  pose proof (AM _ _ T1) as U1. pose proof (AM _ _ T2) as U2. unfold u64 in *.
  destruct (src =? dst); [subst s'; apply (AM _ _ H)|]. destruct T6 as [T6 T7]. rewrite T7 in H.
  destruct (x =? dst); [injection H as <-; cbn [set_amount t_amount]; lia|].
  destruct (x =? src); [injection H as <-; cbn [set_amount t_amount]; lia|]. apply (AM _ _ H).
Qed.

Lemma pda_inj n1 k1 n2 k2 p : e_pda e n1 k1 = Some p -> e_pda e n2 k2 = Some p -> k1 = k2.
Proof. apply (eo_pda _ EO). Qed.
(** The vaults after one market's step. *)
Lemma wvaults_step s s' k m m' f : wstruct (D s) -> dstep (D s) (D s') k m m' -> wvaults s -> amounts_ok s' ->
  tdelta s s' f -> (forall p w x, e_pda e (m_nonce m) k = Some p -> is_pda e w -> w <> p -> 0 <= f x w) ->
  (proper m -> forall p v, e_pda e (m_nonce m) k = Some p -> v = m_coin_vault m \/ v = m_pc_vault m -> need m' v <= need m v + f v p) ->
  wvaults s'.
Proof.
  intros W S [V1 V2 V3] AM TD OTHER OWN.
  assert (G : forall kx mx v mint, D s' kx = Some (DMarket mx) ->
    (forall k0 m0, D s k0 = Some (DMarket m0) -> v m0 = m_coin_vault m0 \/ v m0 = m_pc_vault m0) ->
    (forall k0 m0, D s k0 = Some (DMarket m0) -> exists t, vault_ok s k0 m0 (v m0) (mint m0) t) ->
    v m' = v m -> mint m' = mint m ->
    exists t, vault_ok s' kx mx (v mx) (mint mx) t).
  { intros kx mx v mint H SEL VO LV LM. destruct (Z.eq_dec kx k) as [->|N].
    - rewrite (ds_mkt' _ _ _ _ _ S) in H. injection H as <-. pose proof (ds_mkt _ _ _ _ _ S) as SM.
      destruct (VO k m SM) as (t & [P1 P2 P3 P4 P5 P6]). destruct (TD _ _ P1 P4) as (t' & T1 & T2 & T3 & T4 & T5 & T6).
      destruct (ds_links _ _ _ _ _ S) as (l1 & l2 & l3 & l4 & l5 & l6 & l7 & l8 & l9 & l10 & l11 & l12).
      exists t'. rewrite LV, LM. constructor; try assumption.
      + congruence.
      + rewrite T2, l2. assumption.
      + congruence.
      + intros PR. assert (PR0 : proper m) by (unfold proper in *; rewrite l11, l12, l3, l4 in PR; exact PR).
        specialize (P6 PR0). pose proof (OWN PR0 (t_owner t) (v m) P3 (SEL k m SM)). lia.
    - pose proof (market_was (D s) (D s') k m m' W S kx mx H N) as HX. destruct (VO kx mx HX) as (t & [P1 P2 P3 P4 P5 P6]).
      destruct (TD _ _ P1 P4) as (t' & T1 & T2 & T3 & T4 & T5 & T6). exists t'. constructor; try assumption.
      + congruence.
      + rewrite T2. assumption.
      + congruence.
      + intros PR. specialize (P6 PR).
        destruct (V2 k m (ds_mkt _ _ _ _ _ S)) as (tk & [_ _ K3 _ _ _]).
        assert (NP : t_owner t <> t_owner tk) by (intros E; rewrite E in P3; apply N; eapply pda_inj; eassumption).
        assert (PD : is_pda e (t_owner t)) by (exists (m_nonce mx), kx; assumption).
        pose proof (OTHER (t_owner tk) (t_owner t) (v mx) K3 PD NP). lia. }
  destruct (ds_links _ _ _ _ _ S) as (l1 & l2 & l3 & l4 & l5 & l6 & l7 & l8 & l9 & l10 & l11 & l12).
  constructor; [assumption| |]; intros kx mx H.
  - apply (G kx mx m_coin_vault m_coin_mint H); auto.
  - apply (G kx mx m_pc_vault m_pc_mint H); auto.
Qed.
Lemma winv_step s s' k m m' f : winv s -> dstep (D s) (D s') k m m' -> amounts_ok s' ->
  (proper m' -> exists seq L A o, mstate (D s') k m' seq L A o) ->
  tdelta s s' f -> (forall p w x, e_pda e (m_nonce m) k = Some p -> is_pda e w -> w <> p -> 0 <= f x w) ->
  (proper m -> forall p v, e_pda e (m_nonce m) k = Some p -> v = m_coin_vault m \/ v = m_pc_vault m -> need m' v <= need m v + f v p) ->
  winv s'.
Proof.
  intros [W1 W2 W3] S AM MS TD F1 F2. constructor.
  - eapply wstruct_step; eassumption.
  - eapply wmarkets_step; eassumption.
  - eapply wvaults_step; eassumption.
Qed.

(** ** The start and the environment *)
Lemma winv_genesis s : genesis e s -> winv s.
Proof.
  intros [G1 G2 G3]. assert (N : forall k d, D s k = Some d -> d <> DZero -> False) by (intros k d H ND; apply ND; eapply G1; eassumption).
  constructor; [constructor|unfold wmarkets|constructor]; try assumption; intros; exfalso; (eapply N; [match goal with H : dexd e s _ = Some _ |- _ => exact H end|discriminate]).
Qed.
Lemma rely_kept s s' : rely e s s' -> forall k d, D s k = Some d -> d <> DZero -> ~ is_closed d -> D s' k = Some d.
Proof. intros [R _ _] k d H N1 N2. destruct (R k) as [E|[(E & d0 & E0 & [E1|E1])|(E & E0 & _)]]; congruence. Qed.
Lemma rely_was s s' : rely e s s' -> forall k d, D s' k = Some d -> d <> DZero -> D s k = Some d.
Proof. intros [R _ _] k d H N. destruct (R k) as [E|[(E & _)|(E & _)]]; congruence. Qed.
Lemma nc d : (forall oo, d <> DOO oo) -> ~ is_closed d.
Proof. intros H (oo & E & _). exact (H _ E). Qed.
Lemma wstruct_rely s s' : wstruct (D s) -> rely e s s' -> wstruct (D s').
Proof.
  intros W1 R. pose proof (rely_kept _ _ R) as K. pose proof (rely_was _ _ R) as B. destruct W1.
  assert (BM : forall k m, D s' k = Some (DMarket m) -> D s k = Some (DMarket m)) by (intros; apply B; [assumption|discriminate]).
  assert (KM : forall k m, D s k = Some (DMarket m) -> D s' k = Some (DMarket m)) by (intros; apply K; [assumption|discriminate|apply nc; discriminate]).
  assert (KS : forall k sd x, D s k = Some (DSlab sd x) -> D s' k = Some (DSlab sd x)) by (intros; apply K; [assumption|discriminate|apply nc; discriminate]).
  assert (KR : forall k x, D s k = Some (DReqQ x) -> D s' k = Some (DReqQ x)) by (intros; apply K; [assumption|discriminate|apply nc; discriminate]).
  assert (KE : forall k x, D s k = Some (DEventQ x) -> D s' k = Some (DEventQ x)) by (intros; apply K; [assumption|discriminate|apply nc; discriminate]).
  constructor.
  - eauto.
  - eauto.
  - intros k m H N. destruct (ws_bids0 k m (BM _ _ H) N) as (sl & X). eauto.
  - intros k m H. destruct (ws_asks0 k m (BM _ _ H)) as (sl & X). eauto.
  - intros k m H. destruct (ws_req0 k m (BM _ _ H)) as (sl & X). eauto.
  - intros k m H. destruct (ws_evq0 k m (BM _ _ H)) as (sl & X). eauto.
  - intros k1 m1 k2 m2 H1 H2. eapply ws_inj0; eauto.
  - intros x oo H. destruct (ws_oo0 x oo) as [[F (mm & G)]|F]; [apply B; [assumption|discriminate]|left; split; eauto|right; assumption].
  - destruct (re_dex _ _ _ R 0) as [E|[(E & _)|(_ & _ & E)]]; congruence.
Qed.
Lemma winv_rely s s' : winv s -> rely e s s' -> winv s'.
Proof.
  intros [W1 W2 W3] R. pose proof (rely_kept _ _ R) as K. pose proof (rely_was _ _ R) as B. pose proof (wstruct_rely s s' W1 R) as W1'. destruct W1.
  assert (BM : forall k m, D s' k = Some (DMarket m) -> D s k = Some (DMarket m)) by (intros; apply B; [assumption|discriminate]).
  assert (KM : forall k m, D s k = Some (DMarket m) -> D s' k = Some (DMarket m)) by (intros; apply K; [assumption|discriminate|apply nc; discriminate]).
  assert (KS : forall k sd x, D s k = Some (DSlab sd x) -> D s' k = Some (DSlab sd x)) by (intros; apply K; [assumption|discriminate|apply nc; discriminate]).
  assert (KR : forall k x, D s k = Some (DReqQ x) -> D s' k = Some (DReqQ x)) by (intros; apply K; [assumption|discriminate|apply nc; discriminate]).
  assert (KE : forall k x, D s k = Some (DEventQ x) -> D s' k = Some (DEventQ x)) by (intros; apply K; [assumption|discriminate|apply nc; discriminate]).
  constructor.
  - exact W1'.
  - intros k m H P. destruct (W2 k m (BM _ _ H) P) as (seq & L & A & o & []). exists seq, L, A, o. constructor; auto.
    destruct ms_lists0 as [L1 L2]. split; [assumption|]. intros x oo. rewrite L2. unfold live. split; intros (E1 & E2 & E3); split; auto.
    + apply K; [assumption|discriminate|]. intros (oo' & [= <-] & E'). rewrite E' in E2. discriminate.
    + apply B; [assumption|discriminate].
  - destruct W3 as [V1 V2 V3].
    assert (G : forall k m v mint t, vault_ok s k m v mint t -> exists t', vault_ok s' k m v mint t').
    { intros k m v mint t []. destruct (re_tok _ _ _ R v t vo_tok0) as (t' & T1 & T2 & T3 & T4 & T5 & T6); [exists (m_nonce m), k; assumption|assumption|].
      exists t'. constructor; try congruence; try assumption. intros P. specialize (vo_need0 P). lia. }
    constructor; [exact (re_amt _ _ _ R)| |]; intros k m H.
    + destruct (V2 k m (BM _ _ H)) as (t & VO). eauto.
    + destruct (V3 k m (BM _ _ H)) as (t & VO). eauto.
Qed.
End Inv.
