(** Markets do not touch each other (C57). *)
From Verif Require Import Base Fees ListSum Queue Codec Critbit CritbitSlab Market Slots Matching MatchSteps Ledger Core Instr Store Process StoreProofs World WorldInv WorldLoad WorldMain WorldSpec WorldFacts WorldAuth WorldRights.

Section Isolate.
Variable e : env.
Hypothesis EO : env_ok e.
Notation D := (dexd e).

Lemma apart d k m k2 m2 : wstruct d -> d k = Some (DMarket m) -> d k2 = Some (DMarket m2) -> k2 <> k -> forall y,
  y = k2 \/ y = m_bids m2 \/ y = m_asks m2 \/ y = m_req_q m2 \/ y = m_event_q m2 -> y <> k /\ y <> m_bids m /\ y <> m_asks m /\ y <> m_event_q m /\ y <> m_req_q m.
Proof.
  intros W HM H2 N y Y. destruct (ws_inj _ W _ _ _ _ HM H2 (not_eq_sym N)) as (N1 & N2 & N3 & N4).
  destruct (ws_asks _ W _ _ HM) as (sa & HA). destruct (ws_asks _ W _ _ H2) as (sa2 & HA2). destruct (ws_req _ W _ _ HM) as (rq & HR). destruct (ws_req _ W _ _ H2) as (rq2 & HR2).
  destruct (ws_evq _ W _ _ HM) as (q & HQ). destruct (ws_evq _ W _ _ H2) as (q2 & HQ2).
  assert (HB : m_bids m = m_asks m \/ exists sl, d (m_bids m) = Some (DSlab Bid sl)) by (destruct (Z.eq_dec (m_bids m) (m_asks m)); [auto|right; eapply ws_bids; eassumption]).
  assert (HB2 : m_bids m2 = m_asks m2 \/ exists sl, d (m_bids m2) = Some (DSlab Bid sl)) by (destruct (Z.eq_dec (m_bids m2) (m_asks m2)); [auto|right; eapply ws_bids; eassumption]).
  destruct HB as [HB|(sb & HB)], HB2 as [HB2|(sb2 & HB2)]; destruct Y as [->|[->|[->|[->| ->]]]]; repeat split; congruence.
Qed.
Lemma orders_apart d k m x oo : wstruct d -> d k = Some (DMarket m) -> d x = Some (DOO oo) -> x <> k /\ x <> m_bids m /\ x <> m_asks m /\ x <> m_event_q m /\ x <> m_req_q m.
Proof.
  intros W HM HX. destruct (ws_asks _ W _ _ HM) as (sa & HA). destruct (ws_req _ W _ _ HM) as (rq & HR). destruct (ws_evq _ W _ _ HM) as (q & HQ).
  assert (HB : m_bids m = m_asks m \/ exists sl, d (m_bids m) = Some (DSlab Bid sl)) by (destruct (Z.eq_dec (m_bids m) (m_asks m)); [auto|right; eapply ws_bids; eassumption]).
  destruct HB as [HB|(sb & HB)]; repeat split; congruence.
Qed.
(** The market's own accounts hold something. *)
Lemma own_some d k m y : wstruct d -> d k = Some (DMarket m) -> y = k \/ y = m_bids m \/ y = m_asks m \/ y = m_req_q m \/ y = m_event_q m -> exists a, d y = Some a /\ a <> DZero /\ forall oo, a <> DOO oo.
Proof.
  intros W HM Y. destruct (ws_asks _ W _ _ HM) as (sa & HA). destruct (ws_req _ W _ _ HM) as (rq & HR). destruct (ws_evq _ W _ _ HM) as (q & HQ).
  destruct Y as [->|[->|[->|[->| ->]]]]; try (eexists; split; [eassumption|]; split; [discriminate|intros; discriminate]).
  destruct (Z.eq_dec (m_bids m) (m_asks m)) as [E|E]; [rewrite E; eexists; split; [eassumption|]; split; [discriminate|intros; discriminate]|].
  destruct (ws_bids _ W _ _ HM E) as (sb & HB). eexists; split; [eassumption|]; split; [discriminate|intros; discriminate].
Qed.

(** One market at most is concerned; money leaves nothing but its vaults and the accounts of signers. *)
Lemma concerned s c i ms s' : wstruct (D s) -> process e c s i ms = Ok s' ->
  exists k, (forall k2 m2 y, k2 <> k -> D s k2 = Some (DMarket m2) -> belongs e s k2 m2 y -> D s' y = D s y) /\
    purse (signed_by ms) (fun v => exists m, D s k = Some (DMarket m) /\ (v = m_coin_vault m \/ v = m_pc_vault m)) s s'.
Proof.
  intros W H.
  assert (G : forall k m m' xo, deed e s s' k m m' xo -> (forall x o, xo = Some (x, o) -> D s x = Some DZero \/ exists oo, D s x = Some (DOO oo) /\ oo_market oo = k) ->
    forall k2 m2 y, k2 <> k -> D s k2 = Some (DMarket m2) -> belongs e s k2 m2 y -> D s' y = D s y).
  { intros k m m' xo DE X k2 m2 y N H2 B. pose proof (de_mkt _ _ _ _ _ _ _ DE) as HM. unfold belongs in B.
    assert (B' : (y = k2 \/ y = m_bids m2 \/ y = m_asks m2 \/ y = m_req_q m2 \/ y = m_event_q m2) \/ exists oo, D s y = Some (DOO oo) /\ oo_market oo = k2) by tauto. destruct B' as [B'|(oo & HY & OM)].
    - destruct (apart _ _ _ _ _ W HM H2 N y B') as (n1 & n2 & n3 & n4 & n5). destruct (own_some _ _ _ _ W H2 B') as (a & HY & A1 & A2).
      apply (de_else _ _ _ _ _ _ _ DE); try assumption. intros x o E ->. destruct (X _ _ E) as [Z|(oo & Z & _)]; [congruence|]. rewrite HY in Z. injection Z as ->. exact (A2 _ eq_refl).
    - destruct (orders_apart _ _ _ _ _ W HM HY) as (n1 & n2 & n3 & n4 & n5). apply (de_else _ _ _ _ _ _ _ DE); try assumption. intros x o E ->. destruct (X _ _ E) as [Z|(o2 & Z & Z2)]; congruence. }
  destruct (process_act e EO c s i ms s' W H) as [n E1 E2|ix E1 W' KE OO TK|n k m OR IK W' HM HM' TK QQ V|k m m' x oo oo' DE IK IX LV SG SI FL MF NO PU|n k m x oo oo' a E1 DE IX LV SI PA SA EN TK|ix k m m' E1 K0 DE MF EN PU|k m E1 DE SG EN TK|k m E1 K0 DE SG EN PU].
  - subst s'. exists 0. split; [reflexivity|apply purse_refl].
  - exists 0. split; [|apply purse_same; exact TK]. intros k2 m2 y _ H2 B. unfold belongs in B.
    assert (B' : (y = k2 \/ y = m_bids m2 \/ y = m_asks m2 \/ y = m_req_q m2 \/ y = m_event_q m2) \/ exists oo, D s y = Some (DOO oo) /\ oo_market oo = k2) by tauto. destruct B' as [B'|(oo & HY & OM)].
    + destruct (own_some _ _ _ _ W H2 B') as (a & HY & A1 & _). rewrite HY. apply KE; assumption.
    + rewrite HY. apply KE; [assumption|discriminate].
  - exists k. split; [|apply purse_same; exact TK]. intros k2 m2 y N H2 B. unfold belongs in B.
    assert (B' : (y = k2 \/ y = m_bids m2 \/ y = m_asks m2 \/ y = m_req_q m2 \/ y = m_event_q m2) \/ exists oo, D s y = Some (DOO oo) /\ oo_market oo = k2) by tauto. destruct B' as [B'|(oo & HY & OM)].
    + destruct (apart _ _ _ _ _ W HM H2 N y B') as (n1 & n2 & n3 & n4 & n5). destruct (own_some _ _ _ _ W H2 B') as (a & HY & A1 & A2).
      destruct (V y n4) as [E|(_ & o & o' & (L1 & _) & _)]; [exact E|]. rewrite HY in L1. injection L1 as ->. destruct (A2 _ eq_refl).
    + destruct (orders_apart _ _ _ _ _ W HM HY) as (n1 & n2 & n3 & n4 & n5). destruct (V y n4) as [E|(_ & o & o' & (L1 & _ & L3) & _)]; [exact E|congruence].
  - exists k. pose proof (de_mkt _ _ _ _ _ _ _ DE). split; [apply (G _ _ _ _ DE); intros x1 o [= <- <-]; destruct LV as [(L1 & _ & L3)|(L1 & _)]; eauto|].
    eapply purse_weak; [| |exact PU]; [auto|]. intros v (_ & _ & X). eauto.
  - exists k. split; [apply (G _ _ _ _ DE); intros x1 o [= <- <-]; destruct LV as (L1 & _ & L3); eauto|apply purse_same; exact TK].
  - exists k. pose proof (de_mkt _ _ _ _ _ _ _ DE). split; [apply (G _ _ _ _ DE); discriminate|]. eapply purse_weak; [| |exact PU]; [auto|]. intros v X. eauto.
  - exists k. split; [apply (G _ _ _ _ DE); discriminate|apply purse_same; exact TK].
  - exists k. pose proof (de_mkt _ _ _ _ _ _ _ DE). split; [apply (G _ _ _ _ DE); discriminate|]. eapply purse_weak; [| |exact PU]; [auto|]. intros v X. eauto.
Qed.
Theorem isolated s c i ms s' : anytime e s -> process e c s i ms = Ok s' ->
  exists k, forall k2 m2 y, k2 <> k -> D s k2 = Some (DMarket m2) -> belongs e s k2 m2 y -> D s' y = D s y.
Proof. intros AT H. destruct (concerned s c i ms s' (anytime_struct e EO s AT) H) as (k & X & _). eauto. Qed.
(** Its vaults lose nothing either. *)
Theorem isolated_vaults s c i ms s' : history e s -> legal e ms -> process e c s i ms = Ok s' ->
  exists k, forall k2 m2, k2 <> k -> D s k2 = Some (DMarket m2) ->
    (forall y, belongs e s k2 m2 y -> D s' y = D s y) /\
    (forall y, y = m_coin_vault m2 \/ y = m_pc_vault m2 -> exists t t', token_at s y = Some t /\ token_at s' y = Some t' /\ t_amount t <= t_amount t').
Proof.
  intros HI LG H. pose proof (reachable_inv e EO s HI) as WI.
  assert (VK : forall k m y, D s k = Some (DMarket m) -> y = m_coin_vault m \/ y = m_pc_vault m -> exists mint t, vault_ok e s k m y mint t).
  { intros k m y HM [->| ->]; [destruct (wv_coin _ _ (wi_vlt _ _ WI) k m HM) as (t & V)|destruct (wv_pc _ _ (wi_vlt _ _ WI) k m HM) as (t & V)]; eauto. }
  destruct (concerned s c i ms s' (wi_str _ _ WI) H) as (k & B & PU). exists k. intros k2 m2 N H2. split; [intros y BY; eapply B; eassumption|].
  intros y Y. destruct (VK _ _ _ H2 Y) as (mint & t & [T1 T2 T3 [T4 T4'] T5 _]).
  destruct (PU y t T1) as (t' & T' & _ & _ & _ & LS). exists t, t'. split; [assumption|]. split; [assumption|].
  destruct (Z_le_gt_dec (t_amount t) (t_amount t')) as [|GT]; [assumption|exfalso].
  assert (NS : ~ signed_by ms (t_owner t)).
  { intros (a & IA & KA & SA). apply (LG a IA SA). rewrite KA. eexists _, _. exact T3. }
  destruct (LS ltac:(lia)) as [X|[(d & X & _)|(m & HM & VM)]]; [exact (NS X)|congruence|].
  destruct (VK _ _ _ HM VM) as (mint' & t1 & [U1 U2 U3 _ _ _]). assert (t1 = t) by congruence. subst t1. apply N. eapply (eo_pda _ EO); eassumption.
Qed.
End Isolate.
