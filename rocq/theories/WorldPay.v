(** Token movements, and what a settle does. *)
From Coq Require Import Permutation.
From Verif Require Import Base BaseProofs Fees ListSum Queue QueueProofs Codec CodecProofs Critbit CritbitProofs CritbitSlab Market Matching MatchSteps MatchRefine MatchAsk MatchBid MatchRun MatchSpec Ledger LedgerSteps LedgerRun MatchReport MatchOrder MatchFacts Slots Core CoreInv CoreNew CoreCancel CoreConsume CoreSettle CoreFrame Instr InstrProofs Store Process StoreProofs World WorldInv WorldLoad WorldRun WorldStep WorldStep2 WorldConsume WorldInit WorldMain WorldSpec WorldFacts WorldFwd WorldCancel.

Lemma moves_quiet s s' : (forall x, token_at s' x = token_at s x) -> moves s s' [].
Proof. intros H v. rewrite H. destruct (token_at s v) as [t|]; [|reflexivity]. exists t. cbn [zsum]. repeat (split; [reflexivity|]). lia. Qed.
Lemma moves_app a b c p q : moves a b p -> moves b c q -> moves a c (p ++ q).
Proof.
  intros H1 H2 v. specialize (H1 v). specialize (H2 v). destruct (token_at a v) as [t|].
  - destruct H1 as (t1 & E1 & M1 & O1 & S1 & A1). rewrite E1 in H2. destruct H2 as (t2 & E2 & M2 & O2 & S2 & A2). exists t2. rewrite zsum_app. repeat (split; [congruence|]). lia.
  - rewrite H1 in H2. exact H2.
Qed.
Lemma moves_transferred e s s' src dst auth amt : transferred e s s' src dst auth amt -> moves s s' [(src, dst, amt)].
Proof.
  intros [_ _ _ _ _ (ts & td & T1 & T2 & T3 & T4 & T5 & T6 & T7 & T8)] v. cbn [zsum got]. destruct (Z.eqb_spec src dst) as [E|N].
  - subst s'. destruct (token_at s v) as [t|]; [|reflexivity]. exists t. repeat (split; [reflexivity|]). subst dst. destruct (v =? src); lia.
  - destruct T8 as [_ T8]. rewrite T8. destruct (Z.eqb_spec v dst) as [->|N1].
    + rewrite T2. replace (dst =? src) with false by lia. eexists. split; [reflexivity|]. cbn. repeat (split; [reflexivity|]). lia.
    + destruct (Z.eqb_spec v src) as [->|N2].
      * rewrite T1. eexists. split; [reflexivity|]. destruct (is_delegate ts auth); cbn; repeat (split; [reflexivity|]); lia.
      * destruct (token_at s v) as [t|]; [|reflexivity]. exists t. repeat (split; [reflexivity|]). lia.
Qed.
Lemma transfer_only s src dst auth sg amt s' : spl_transfer s src dst auth sg amt = Ok s' -> only s s' [src; dst].
Proof.
  unfold spl_transfer. intros H y NI. cbn [In] in NI. apply rbind_ok in H. destruct H as (? & _ & H). destruct (token_at s src) as [ts|]; [|discriminate]. destruct (token_at s dst) as [td|]; [|discriminate].
  cbn [ok_or rbind] in H. do 6 (apply rbind_ok in H; destruct H as (? & _ & H)). destruct (src =? dst); [congruence|]. apply rbind_ok in H. destruct H as (? & _ & H). injection H as <-.
  rewrite !sget_put. replace (y =? dst) with false by lia. replace (y =? src) with false by lia. reflexivity.
Qed.
Lemma send_only s v dst auth amt s' : send_from_vault s v dst auth amt = Ok s' -> only s s' [v; dst].
Proof. unfold send_from_vault. destruct (spl_transfer s v dst auth true amt) eqn:E; try discriminate. intros [= <-]. eapply transfer_only. exact E. Qed.
Lemma take_in_only s h src v auth amt s' : transfer_in s h src v auth amt = Ok s' -> only s s' [src; v].
Proof.
  unfold transfer_in. destruct (amt =? 0); [intros [= <-] y _; reflexivity|]. intros H. apply rbind_ok in H. destruct H as (? & _ & H). apply rbind_ok in H. destruct H as (? & _ & H). apply rbind_ok in H. destruct H as (s1 & T & H).
  do 2 (apply rbind_ok in H; destruct H as (? & _ & H)). injection H as <-. eapply transfer_only. exact T.
Qed.
Lemma only_trans a b c p q r : only a b p -> only b c q -> incl p r -> incl q r -> only a c r.
Proof. intros H1 H2 I1 I2 y N. rewrite H2, H1; [reflexivity| |]; intros I; apply N; auto. Qed.
Lemma only_put s x d : only s (put_data s x d) [x].
Proof. intros y N. cbn [In] in N. rewrite sget_put. replace (y =? x) with false by lia. reflexivity. Qed.
(** When a payment out of a vault goes through. *)
Lemma send_fwd s v dst p amt tv td : token_at s v = Some tv -> token_at s dst = Some td -> t_state tv = 1 -> t_state td = 1 -> t_mint tv = t_mint td -> t_owner tv = p -> t_delegate tv = None ->
  0 <= amt <= t_amount tv -> (v <> dst -> t_amount td + amt < B64) -> exists s', send_from_vault s v dst p amt = Ok s'.
Proof.
  intros T1 T2 S1 S2 M O DL AM RM. unfold send_from_vault, spl_transfer. rewrite T1, T2. replace (0 <=? amt) with true by lia. cbn [check ok_or rbind]. rewrite S1, S2, M, O. cbn [Z.eqb andb].
  assert (E : amt <=? t_amount tv = true) by lia. rewrite E, !Z.eqb_refl. unfold is_delegate. rewrite DL. rewrite orb_true_r. cbn [check rbind negb orb Pos.eqb andb].
  destruct (Z.eqb_spec v dst); [eauto|]. specialize (RM n). replace (t_amount td + amt <? B64) with true by lia. cbn [check rbind]. eauto.
Qed.

Lemma put_acct_notin L x oo : ~ In x (map fst L) -> put_acct L x oo = L.
Proof.
  unfold put_acct. induction L as [|[y oy] r IH]; cbn [map fst In]; intros N; [reflexivity|]. replace (y =? x) with false by lia. f_equal. apply IH. tauto.
Qed.
Lemma put_acct_perm L x oo oo' rest : Permutation L ((x, oo) :: rest) -> ~ In x (map fst rest) -> Permutation ((x, oo') :: rest) (put_acct L x oo').
Proof.
  intros PM N. symmetry. unfold put_acct. rewrite (Permutation_map _ PM). cbn [map fst]. rewrite Z.eqb_refl. fold (put_acct rest x oo'). rewrite put_acct_notin by assumption. reflexivity.
Qed.

Section Pay.
Variable e : env.
Hypothesis EO : env_ok e.
Notation D := (dexd e).
Lemma seen_perm s k m A L L' : Permutation L L' -> seen e s k m A L -> seen e s k m A L'.
Proof.
  intros PM [a1 a2 a3 a4 a5 a6]. constructor; try assumption.
  - eapply Permutation_NoDup; [apply Permutation_map; exact PM|exact a5].
  - intros x oo. rewrite <- a6. split; apply Permutation_in; [symmetry|]; assumption.
Qed.
Section One.
Variables (s : store) (k : Z) (m : market) (A : astate) (L : list (Z * open_orders)).
Hypothesis (WI : winv e s) (SN : seen e s k m A L) (P : usable m).
Let HM := sn_mkt _ _ _ _ _ _ SN.

Theorem settle_effect c ms s' : process e c s ISettleFunds ms = Ok s' -> key_at ms 0 = Some k ->
  exists x oo cw pw, key_at ms 1 = Some x /\ In (x, oo) L /\ signs ms 2 (oo_owner oo) /\ key_at ms 5 = Some cw /\ key_at ms 6 = Some pw /\
    settles e s s' k m A L x oo cw pw (key_at ms 9).
Proof.
  intros H K. cbn [process] in H. destruct (settle_ran e s ms s' (wi_str _ _ WI) H) as (k' & x & w & cw & pw & p & ref & m0 & oo & m' & oo' & ca & pa & rb & s2 & s3 & R).
  pose proof (rs_keys _ _ _ _ _ _ _ _ _ _ _ _ _ _ _ _ _ _ _ _ R) as (spl & KM). pose proof (rs_mkt _ _ _ _ _ _ _ _ _ _ _ _ _ _ _ _ _ _ _ _ R) as HM0.
  rewrite (key_at_map _ _ _ KM) in K. injection K as ->. assert (m0 = m) as -> by congruence.
  pose proof (rs_oo _ _ _ _ _ _ _ _ _ _ _ _ _ _ _ _ _ _ _ _ R) as LV. pose proof (rs_owner _ _ _ _ _ _ _ _ _ _ _ _ _ _ _ _ _ _ _ _ R) as OW.
  pose proof (rs_core _ _ _ _ _ _ _ _ _ _ _ _ _ _ _ _ _ _ _ _ R) as HC. pose proof (rs_coin _ _ _ _ _ _ _ _ _ _ _ _ _ _ _ _ _ _ _ _ R) as T1. pose proof (rs_pc _ _ _ _ _ _ _ _ _ _ _ _ _ _ _ _ _ _ _ _ R) as T2.
  pose proof (rs_ref _ _ _ _ _ _ _ _ _ _ _ _ _ _ _ _ _ _ _ _ R) as T3. pose proof (rs_sign _ _ _ _ _ _ _ _ _ _ _ _ _ _ _ _ _ _ _ _ R) as SG.
  destruct (se_state e EO s ms s' k x w cw pw p ref m oo m' oo' ca pa rb s2 s3 WI R P) as (seq0 & L0 & rest & A0 & o & MS & PM & ND & INR & SD & AI & MS').
  destruct (seen_state e s k m A L WI SN P) as (seq & o1 & MS1).
  assert (EOB : o1 = o). { destruct MS, MS1, o as [b1 a1 m1 q1], o1 as [b2 a2 m2 q2]; cbn [ob_mkt ob_bids ob_asks ob_eq] in *. congruence. }
  assert (A0 = A) as ->. { eapply rep_fun; [exact (ci_rep _ _ _ _ (ms_inv _ _ _ _ _ _ _ MS))|]. rewrite <- EOB. exact (ci_rep _ _ _ _ (ms_inv _ _ _ _ _ _ _ MS1)). }
  assert (PL : Permutation L0 L). { apply NoDup_Permutation; [apply nodup_pairs; apply MS|apply nodup_pairs; apply MS1|]. intros [y oy]. destruct (ms_lists _ _ _ _ _ _ _ MS) as [_ I0]. destruct (ms_lists _ _ _ _ _ _ _ MS1) as [_ I1]. rewrite I0, I1. reflexivity. }
  assert (IN : In (x, oo) L) by (apply (ms_lists _ _ _ _ _ _ _ MS1); exact LV).
  assert (NIX : ~ In x (map fst rest)). { intros X. apply in_map_iff in X. destruct X as ([y oy] & E & X). cbn [fst] in E. subst y. apply INR in X. tauto. }
  exists x, oo, cw, pw. split; [rewrite (key_at_map _ _ _ KM); reflexivity|]. split; [assumption|]. split; [rewrite OW; apply sig_signs; assumption|].
  split; [rewrite (key_at_map _ _ _ KM); reflexivity|]. split; [rewrite (key_at_map _ _ _ KM); reflexivity|].
  assert (K9 : key_at ms 9 = ref) by (rewrite (key_at_map _ _ _ KM); destruct ref; reflexivity). rewrite K9.
  assert (AO : acct_ok (m_coin_lot m) (m_pc_lot m) seq0 x oo A) by (apply (ai_acct _ _ _ _ AI); left; reflexivity).
  pose proof (ao_reb _ _ _ _ _ _ AO) as RBN. unfold u64 in RBN.
  pose proof SD as [d1 d2 d3 d4 d5 d6 d7 d8 d9 d10 d11 d12 d13 d14 (d15 & d16 & d17 & d18)].
  exists m', oo'. split; [|split; [|split; [|split; [|split]]]].
  - eapply seen_perm; [|eapply state_seen; [|exact MS']].
    + eapply put_acct_perm; [|exact NIX]. transitivity L0; [symmetry; exact PL|exact PM].
    + destruct (se_view e EO s ms s' k x w cw pw p ref m oo m' oo' ca pa rb s2 s3 WI R) as (V & _). rewrite V. unfold small. rewrite Z.eqb_refl. reflexivity.
  - unfold settle_core in HC. apply rbind_ok in HC. destruct HC as (ct & _ & HC). apply rbind_ok in HC. destruct HC as (pt & _ & HC). cbv zeta in HC. injection HC as HC _ _ _ _.
    rewrite <- HC in *. cbn [set_counters m_coin_deposits m_pc_deposits m_pc_fees m_rebates] in *. rewrite d10, d11, d12, d14, d3, d4. f_equal. rewrite d13. destruct ref; cbn [andb]; [|reflexivity].
    destruct (Z.ltb_spec 0 (oo_rebates oo)); [reflexivity|]. lia.
  - unfold changed_by. lia.
  - destruct d2 as (? & ? & ?). split; [assumption|]. split; [assumption|]. split; [assumption|]. intros i _. unfold is_free, order_at, side_at, cid_at. rewrite d15, d16, d17, d18. auto.
  - assert (Q : quiet s (put_data (put_data s k (DMarket m')) x (DOO oo'))) by (eapply quiet_mkt_oo; [exact EO|exact HM|right; eauto]).
    pose proof (moves_quiet _ _ (qu_tok _ _ Q)) as M0. pose proof (moves_transferred e _ _ _ _ _ _ (send_from_vault_ok e (eo_spl _ EO) _ _ _ _ _ _ T1)) as M1. pose proof (moves_transferred e _ _ _ _ _ _ (send_from_vault_ok e (eo_spl _ EO) _ _ _ _ _ _ T2)) as M2.
    pose proof (moves_app _ _ _ _ _ (moves_app _ _ _ _ _ M0 M1) M2) as M. cbn [app] in M. rewrite d3, d4 in M. destruct ref as [r|]; [|subst s'; cbn [app]; exact M]. rewrite d13 in T3. cbn [andb] in T3.
    destruct (Z.ltb_spec 0 (oo_rebates oo)).
    + exact (moves_app _ _ _ _ _ M (moves_transferred e _ _ _ _ _ _ (send_from_vault_ok e (eo_spl _ EO) _ _ _ _ _ _ T3))).
    + subst s'. assert (E0 : oo_rebates oo = 0) by lia. rewrite E0. rewrite <- (app_nil_r [(m_coin_vault m, cw, oo_coin_free oo); (m_pc_vault m, pw, oo_pc_free oo)]) in M. intros v. specialize (M v).
      destruct (token_at s v); [|exact M]. destruct M as (t' & ? & ? & ? & ? & M). exists t'. do 4 (split; [assumption|]). rewrite zsum_app in *. cbn [zsum got] in *. destruct (v =? r), (v =? m_pc_vault m); lia.
  - pose proof (only_put s k (DMarket m')) as O1. pose proof (only_put (put_data s k (DMarket m')) x (DOO oo')) as O2. pose proof (send_only _ _ _ _ _ _ T1) as O3. pose proof (send_only _ _ _ _ _ _ T2) as O4.
    set (base := [k; x; m_coin_vault m; m_pc_vault m; cw; pw]). assert (O : only s s3 base).
    { intros y N. unfold base in N. cbn [In] in N. rewrite O4, O3, O2, O1; [reflexivity|cbn [In]; tauto..]. }
    destruct ref as [r|]; [|subst s'; unfold base in *; cbn [app]; exact O].
    rewrite d13 in T3. cbn [andb] in T3. intros y N. apply (fun X => in_app_or base [r] y) in N || idtac.
    assert (N1 : ~ In y base) by (intros X; apply N; apply in_or_app; left; exact X). assert (N2 : y <> r) by (intros ->; apply N; apply in_or_app; right; left; reflexivity).
    destruct (0 <? oo_rebates oo); [|subst s'; apply O; assumption]. rewrite (send_only _ _ _ _ _ _ T3 y), (O y N1); [reflexivity|]. unfold base in N1. cbn [In] in *. intros [X|[X|[]]]; [apply N1; auto|congruence].
Qed.
(** Settling is always possible. *)
Theorem settle_succeeds c x oo cw pw p refs : In (x, oo) L -> e_pda e (m_nonce m) k = Some p ->
  (let due := oo_coin_free oo + oo_pc_free oo + oo_rebates oo in
   wallet s cw (m_coin_mint m) due /\ wallet s pw (m_pc_mint m) due /\ (refs = [] \/ exists r, refs = [r] /\ wallet s r (m_pc_mint m) due)) ->
  thawed s (m_coin_vault m) -> thawed s (m_pc_vault m) ->
  exists s', process e c s ISettleFunds (mkMeta k false :: mkMeta x false :: mkMeta (oo_owner oo) true :: map (fun y => mkMeta y false) ([m_coin_vault m; m_pc_vault m; cw; pw; p; spl_id] ++ refs)) = Ok s'.
Proof.
  cbv zeta. intros IN PD (WC & WP & WR) (t1 & TC & SC) (t2 & TP & SP). set (due := oo_coin_free oo + oo_pc_free oo + oo_rebates oo) in *.
  pose proof (wi_str _ _ WI) as W. destruct (seen_state e s k m A L WI SN P) as (seq & o & MS).
  assert (LV : live (D s) k x oo) by (apply (ms_lists _ _ _ _ _ _ _ MS); exact IN).
  destruct (lists_take _ _ _ _ _ (ms_lists _ _ _ _ _ _ _ MS) LV) as (rest & PM & _).
  assert (AI : ainv m seq ((x, oo) :: rest) A).
  { rewrite <- (ms_mkt _ _ _ _ _ _ _ MS). apply cinv_ainv. eapply cinv_perm; [exact PM|]. exact (ms_inv _ _ _ _ _ _ _ MS). }
  pose proof (ai_acct _ _ _ _ AI x oo (or_introl eq_refl)) as AO. pose proof (ao_coin _ _ _ _ _ _ AO). pose proof (ao_pc _ _ _ _ _ _ AO). pose proof (ao_reb _ _ _ _ _ _ AO) as RB. unfold u64 in RB.
  destruct (wi_vlt _ _ WI) as [VA VC VP]. destruct (VC k m HM) as (tc & [c1 c2 c3 (c4 & c4') c5 c6]). destruct (VP k m HM) as (tp & [p1 p2 p3 (p4 & p4') p5 p6]).
  assert (t1 = tc) by congruence. assert (t2 = tp) by congruence. subst t1 t2. specialize (c6 P). specialize (p6 P).
  destruct (vault_cover e s k m WI HM P) as (tc' & tp' & _ & _ & _ & PO).
  set (ref := match refs with [] => false | _ => true end).
  destruct (settle_spec m seq x oo rest A AI ref) as (m' & oo' & ca & pa & rb & HC & SD & AI'); [lia|].
  pose proof SD as [d1 d2 d3 d4 d5 d6 d7 d8 d9 d10 d11 d12 d13 d14 _].
  pose proof (ai_coin_dep _ _ _ _ AI') as U1. destruct (ai_mkt _ _ _ _ AI') as (U2 & U3 & U4). destruct (ai_mkt _ _ _ _ AI) as (U5 & U6 & U7). unfold u64 in *.
  assert (CW : load_coin_wallet s m cw = Ok (match token_at s cw with Some t => t | None => tc end) /\ load_pc_wallet s m pw = Ok (match token_at s pw with Some t => t | None => tc end)).
  { destruct WC as (t & X1 & X2 & X3 & X4 & X5). destruct WP as (t' & Y1 & Y2 & Y3 & Y4 & Y5). unfold load_coin_wallet, load_pc_wallet, load_token. rewrite X1, Y1.
    destruct (token_at_inv _ _ _ X1) as [Z1 Z2]. destruct (token_at_inv _ _ _ Y1) as [Z3 Z4]. rewrite Z1, X2, Z2, X3, Z3, Y2, Z4, Y3. rewrite !Z.eqb_refl. cbn [check rbind Z.eqb Pos.eqb]. rewrite X4, Y4, !Z.eqb_refl. auto. }
  destruct CW as [CW1 CW2].
  assert (CV : exists a b, load_coin_vault s m (m_coin_vault m) = Ok a /\ load_pc_vault s m (m_pc_vault m) = Ok b).
  { exists tc, tp. unfold load_coin_vault, load_pc_vault, load_token. destruct (token_at_inv _ _ _ c1) as [Z1 Z2]. destruct (token_at_inv _ _ _ p1) as [Z3 Z4]. rewrite Z1, Z2, c2, SC, Z3, Z4, p2, SP, !Z.eqb_refl. auto. }
  destruct CV as (va & vb & CV1 & CV2).
  set (s1 := put_data (put_data s k (DMarket m')) x (DOO oo')).
  assert (Q : quiet s s1) by (eapply quiet_mkt_oo; [exact EO|exact HM|right; eauto]).
  destruct WC as (tw & X1 & X2 & X3 & X4 & X5). destruct WP as (tq & Y1 & Y2 & Y3 & Y4 & Y5).
  rewrite c3 in PD. injection PD as OP. assert (OP2 : t_owner tp = p) by congruence.
  unfold need in c6, p6. rewrite Z.eqb_refl in c6, p6. unfold pc_owed in *.
  destruct (send_fwd s1 (m_coin_vault m) cw p ca tc tw) as (s2 & T1); try assumption; try (rewrite (qu_tok _ _ Q); assumption); try congruence; try (subst due; lia).
  { destruct (m_coin_vault m =? m_pc_vault m); lia. }
  pose proof (moves_transferred e _ _ _ _ _ _ (send_from_vault_ok e (eo_spl _ EO) _ _ _ _ _ _ T1)) as M1.
  pose proof (transferred_tdelta e _ _ _ _ _ _ (send_from_vault_ok e (eo_spl _ EO) _ _ _ _ _ _ T1)) as TD1.
  assert (P1 := p1). rewrite <- (qu_tok _ _ Q) in P1. destruct (TD1 _ _ P1 (conj p4 p4')) as (tp2 & PT & PO2 & PM2 & (PL2 & PL2') & _ & _).
  pose proof (M1 (m_pc_vault m)) as MP. rewrite P1 in MP. destruct MP as (tp3 & PT3 & _ & _ & PS3 & PA3). assert (tp3 = tp2) by congruence. subst tp3.
  pose proof (M1 pw) as MW. rewrite (qu_tok _ _ Q), Y1 in MW. destruct MW as (tq2 & QT & QM & QO & QS & QA).
  cbn [zsum got] in PA3, QA.
  destruct (send_fwd s2 (m_pc_vault m) pw p pa tp2 tq2) as (s3 & T2); try assumption; try congruence.
  { destruct (Z.eqb_spec (m_coin_vault m) (m_pc_vault m)) as [E|E]; [rewrite E, Z.eqb_refl in *|]; destruct (m_pc_vault m =? cw), (m_pc_vault m =? m_coin_vault m) eqn:E2; lia. }
  { intros _. subst due. destruct (pw =? cw), (pw =? m_coin_vault m); lia. }
  cbn [process map app]. unfold proc_settle. cbn [mk mk_signer]. unfold check_spl. rewrite Z.eqb_refl. cbn [check rbind]. rewrite (load_market_any e s k m W HM). cbn [rbind]. unfold check_signer. cbn [mk_signer check rbind].
  rewrite CV1, CV2, CW1, CW2. cbn [rbind].
  assert (VS : check_vault_signer e m p = Ok tt) by (unfold check_vault_signer; rewrite (ws_own _ W _ _ HM), c3; cbn [ok_or rbind]; rewrite OP, Z.eqb_refl; reflexivity).
  assert (LO : load_orders e s m x (Some (oo_owner oo)) None None = Ok oo) by (apply (load_live_fwd e s k m W HM); [assumption|]; intros ? [= <-]; reflexivity).
  destruct WR as [->|(r & -> & tr & R1 & R2 & R3 & R4 & R5)]; cbn [map rbind mk].
  - rewrite VS. cbn [rbind]. rewrite LO. cbn [rbind]. unfold ref in HC. rewrite HC. cbn [rbind]. cbv zeta. fold s1. rewrite T1. cbn [rbind]. rewrite T2. cbn [rbind]. eauto.
  - assert (RW : load_pc_wallet s m r = Ok tr).
    { unfold load_pc_wallet, load_token. destruct (token_at_inv _ _ _ R1) as [Z1 Z2]. rewrite Z1, R2, Z2, R3. rewrite !Z.eqb_refl. cbn [check rbind Z.eqb Pos.eqb]. rewrite R4, Z.eqb_refl. reflexivity. }
    rewrite RW. cbn [rbind]. rewrite VS. cbn [rbind]. rewrite LO. cbn [rbind]. unfold ref in HC. rewrite HC. cbn [rbind]. cbv zeta. fold s1. rewrite T1. cbn [rbind]. rewrite T2. cbn [rbind].
    destruct rb as [y|]; [|eauto].
    assert (EY : y = oo_rebates oo) by (unfold ref in d13; cbn [andb] in d13; destruct (0 <? oo_rebates oo); congruence).
    pose proof (moves_transferred e _ _ _ _ _ _ (send_from_vault_ok e (eo_spl _ EO) _ _ _ _ _ _ T2)) as M2.
    pose proof (transferred_tdelta e _ _ _ _ _ _ (send_from_vault_ok e (eo_spl _ EO) _ _ _ _ _ _ T2)) as TD2.
    destruct (TD2 _ _ PT (conj PL2 PL2')) as (tp4 & PT4 & PO4 & PM4 & (PL4 & PL4') & _ & _).
    pose proof (M2 (m_pc_vault m)) as MP. rewrite PT in MP. destruct MP as (tp5 & PT5 & _ & _ & PS5 & PA5). assert (tp5 = tp4) by congruence. subst tp5.
    pose proof (M1 r) as MR. rewrite (qu_tok _ _ Q), R1 in MR. destruct MR as (tr2 & RT2 & RM2 & RO2 & RS2 & RA2).
    pose proof (M2 r) as MR. rewrite RT2 in MR. destruct MR as (tr3 & RT3 & RM3 & RO3 & RS3 & RA3). cbn [zsum got] in PA5, RA2, RA3.
    apply (send_fwd s3 (m_pc_vault m) r p y tp4 tr3); try assumption; try congruence.
    + rewrite EY. rewrite Z.eqb_refl in PA5. destruct (Z.eqb_spec (m_coin_vault m) (m_pc_vault m)) as [E|E]; [rewrite E, Z.eqb_refl in *|]; destruct (m_pc_vault m =? cw), (m_pc_vault m =? pw), (m_pc_vault m =? m_coin_vault m) eqn:E2; lia.
    + intros _. rewrite EY. subst due. destruct (r =? cw), (r =? pw), (r =? m_coin_vault m), (r =? m_pc_vault m); lia.
Qed.
End One.
End Pay.
