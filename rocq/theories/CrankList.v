(** Listing a market and opening an account with the crank program. *)
From Coq Require Import Sorted Permutation.
From Verif Require Import Base BaseProofs Fees ListSum Queue Codec Critbit CritbitSlab Market Matching Slots MatchSteps Ledger MatchSpec Core CoreInv Instr InstrProofs Store Process StoreProofs World WorldInv WorldMain WorldSpec WorldSizes WorldRights OpenSpec Client ClientSpec ClientWorks Crank CrankSpec.

Definition cost (crs : list creation) : Z := zsum cr_lamports crs.

Section Listing.
Variable e : env.
Hypothesis EO : env_ok e.
Notation D := (dexd e).
Lemma create_ok s payer cr : fresh s (cr_key cr) -> 0 < cr_lamports cr -> payer_of s payer (cr_lamports cr) -> cr_owner cr = e_prog e -> amounts_ok s ->
  exists s', sys_create s payer cr = Ok s' /\ payer <> cr_key cr /\ rely e s s' /\ sget s' (cr_key cr) = mkAccount (e_prog e) (cr_lamports cr) (cr_space cr) DZero /\
    sget s' payer = set_lamports (sget s payer) (a_lamports (sget s payer) - cr_lamports cr) /\ (forall y, y <> payer -> y <> cr_key cr -> sget s' y = sget s y).
Proof.
  intros (F0 & F1 & F2 & F3) LP (P1 & P2 & P3) OW AM. unfold sys_create. cbv zeta. rewrite F1, F2, F3, P1, P2. change (0 =? 0) with true. cbn [andb check rbind]. replace (cr_lamports cr <=? a_lamports (sget s payer)) with true by lia. cbn [check rbind]. rewrite OW.
  assert (NP : payer <> cr_key cr) by (intros X; rewrite X in P3; lia).
  eexists. split; [reflexivity|]. split; [exact NP|]. set (s' := sput _ _ _).
  assert (G : forall y, sget s' y = if y =? cr_key cr then mkAccount (e_prog e) (cr_lamports cr) (cr_space cr) DZero else if y =? payer then set_lamports (sget s payer) (a_lamports (sget s payer) - cr_lamports cr) else sget s y) by (intros y; unfold s'; rewrite !sget_sput; reflexivity).
  assert (TK : forall y t, token_at s' y = Some t -> token_at s y = Some t).
  { intros y t. unfold token_at. rewrite G. destruct (Z.eqb_spec y (cr_key cr)) as [->|]; [cbn [a_prog a_data]; destruct (e_prog e =? spl_id); discriminate|]. destruct (Z.eqb_spec y payer) as [->|]; [|auto]. cbn [set_lamports a_prog a_data]. auto. }
  assert (KT : forall y t, token_at s y = Some t -> sget s' y = sget s y).
  { intros y t HT. rewrite G. assert (PY : a_prog (sget s y) = spl_id) by (unfold token_at in HT; destruct (Z.eqb_spec (a_prog (sget s y)) spl_id); [assumption|discriminate]).
    destruct (Z.eqb_spec y (cr_key cr)) as [->|]; [rewrite F1 in PY; discriminate PY|]. destruct (Z.eqb_spec y payer) as [->|]; [rewrite P1 in PY; discriminate PY|reflexivity]. }
  split; [|split; [rewrite G, Z.eqb_refl; reflexivity|split]].
  - constructor.
    + intros y. unfold dexd. rewrite G. destruct (Z.eqb_spec y (cr_key cr)) as [->|].
      * right. right. cbn [a_prog a_data]. rewrite Z.eqb_refl, F1. replace (0 =? e_prog e) with false by (pose proof (eo_sys _ EO); lia). auto.
      * left. destruct (Z.eqb_spec y payer) as [->|]; reflexivity.
    + intros y t HT PT LT. exists t. pose proof (KT y t HT) as E. split; [unfold token_at in *; rewrite E; exact HT|]. rewrite E. repeat split; try reflexivity; try apply LT; lia.
    + intros y t HT. apply (AM y). apply TK. exact HT.
  - rewrite G. replace (payer =? cr_key cr) with false by lia. rewrite Z.eqb_refl. reflexivity.
  - intros y N1 N2. rewrite G. replace (y =? cr_key cr) with false by lia. replace (y =? payer) with false by lia. reflexivity.
Qed.
Lemma creates_ok payer crs : forall s, NoDup (map cr_key crs) -> (forall cr, In cr crs -> fresh s (cr_key cr) /\ 0 < cr_lamports cr /\ cr_owner cr = e_prog e) -> payer_of s payer (cost crs) -> history e s ->
  exists s', sys_creates s payer crs = Ok s' /\ history e s' /\ (forall cr, In cr crs -> sget s' (cr_key cr) = mkAccount (e_prog e) (cr_lamports cr) (cr_space cr) DZero) /\
    a_prog (sget s' payer) = a_prog (sget s payer) /\ (forall y, y <> payer -> ~ In y (map cr_key crs) -> sget s' y = sget s y) /\ (crs <> [] -> ~ In payer (map cr_key crs)).
Proof.
  induction crs as [|cr r IH]; intros s ND HC PO H.
  - exists s. split; [reflexivity|]. split; [exact H|]. split; [intros ? []|]. split; [reflexivity|]. split; [reflexivity|congruence].
  - inversion ND as [|? ? NI ND']; subst. destruct (HC cr (or_introl eq_refl)) as (F & LP & OW). destruct PO as (P1 & P2 & P3). unfold cost in P3. cbn [zsum] in P3.
    assert (CR : 0 <= cost r) by (apply zsum_nonneg; intros x IX; destruct (HC x (or_intror IX)) as (_ & ? & _); lia). unfold cost in CR.
    destruct (create_ok s payer cr F LP) as (s1 & E1 & NP & RL & B1 & PY & OT); [split; [exact P1|split; [exact P2|lia]]|exact OW|exact (wv_amt _ _ (wi_vlt _ _ (reachable_inv e EO s H)))|].
    assert (H1 : history e s1) by (eapply reach_env; eassumption).
    destruct (IH s1 ND') as (s' & E' & H' & B' & PP & OT' & NP'); [| |exact H1|].
    + intros x IX. destruct (HC x (or_intror IX)) as ((X0 & X1 & X2 & X3) & X4 & X5). split; [|auto]. assert (NX : cr_key x <> cr_key cr) by (intros Q; apply NI; rewrite <- Q; apply in_map; exact IX).
      assert (NX' : cr_key x <> payer) by (intros Q; rewrite Q in X3; lia). unfold fresh. rewrite (OT _ NX' NX). auto.
    + unfold payer_of. rewrite PY. cbn [set_lamports a_prog a_len a_lamports]. unfold cost. split; [exact P1|split; [exact P2|lia]].
    + exists s'. cbn [sys_creates]. rewrite E1. cbn [rbind]. split; [exact E'|]. split; [exact H'|]. split; [|split; [|split]].
      * intros x [<-|IX]; [|apply B'; exact IX]. rewrite OT'; [exact B1|congruence|exact NI].
      * rewrite PP, PY. reflexivity.
      * intros y N1 N2. cbn [map In] in N2. rewrite OT' by tauto. apply OT; [exact N1|]. intros Q. apply N2. left. congruence.
      * intros _. cbn [map In]. intros [Q|Q]; [congruence|]. destruct r; [destruct Q|]. exact (NP' ltac:(discriminate) Q).
Qed.
Lemma nonce_spec k fuel : forall i n p, c_nonce e k fuel i = Ok (n, p) -> e_pda e n k = Some p /\ i <= n < i + Z.of_nat fuel.
Proof.
  induction fuel as [|f IH]; intros i n p E; cbn [c_nonce] in E; [discriminate|]. destruct (e_pda e i k) as [q|] eqn:Q; [injection E as <- <-; split; [exact Q|lia]|]. destruct (IH _ _ _ E). split; [assumption|lia].
Qed.
Lemma nonce_found k fuel : forall i, (exists n p, e_pda e n k = Some p /\ i <= n < i + Z.of_nat fuel) -> exists n p, c_nonce e k fuel i = Ok (n, p).
Proof.
  induction fuel as [|f IH]; intros i (n & p & Q & R); [lia|]. cbn [c_nonce]. destruct (e_pda e i k) as [q|] eqn:E; [eauto|]. apply IH. exists n, p. split; [exact Q|]. assert (n <> i) by congruence. lia.
Qed.
Lemma token_moved s s' v : sget s' v = sget s v -> token_at s' v = token_at s v.
Proof. intros E. unfold token_at. rewrite E. reflexivity. Qed.

Theorem listing_works c s rent payer k rq eq b a cm pm cv pv cl pl : history e s -> u64 cl -> u64 pl ->
  (exists n p, e_pda e n k = Some p /\ 0 <= n < 100) ->
  NoDup [k; rq; eq; b; a] -> (forall x, In x [k; rq; eq; b; a] -> fresh s x) ->
  (forall n, 0 < rent n /\ c_exempt c (rent n) n = true) -> payer_of s payer (rent 388 + rent 652 + rent 1048588 + rent 65548 + rent 65548) ->
  exists crs ci ks, c_list_market e rent k rq eq b a cm pm cv pv cl pl = Ok (crs, ci, ks) /\
    (usable_vault s (k_vault_signer ks) cv cm -> usable_vault s (k_vault_signer ks) pv pm -> is_mint s cm -> is_mint s pm ->
     (forall x, In x [cv; pv; cm; pm] -> c_exempt c (a_lamports (sget s x)) (a_len (sget s x)) = true) ->
     exists s1 s2 m, sys_creates s payer crs = Ok s1 /\ history e s1 /\ process_bytes e c s1 (ci_data ci) (as_given ci) = Ok s2 /\ dexd e s2 k = Some (DMarket m) /\
       ks = keys_of k m (k_vault_signer ks) /\ e_pda e (m_nonce m) k = Some (k_vault_signer ks) /\
       as_called k cm pm cv pv None None None b a rq eq cl pl (m_nonce m) 100 m /\ a_len (sget s2 rq) = 652).
Proof.
  intros H UC UP NC ND FR RT PO. destruct (nonce_found k 100 0) as (n & p & CN); [destruct NC as (n & p & Q & R); exists n, p; split; [exact Q|lia]|]. destruct (nonce_spec _ _ _ _ _ CN) as [PD RN].
  unfold c_list_market, c_listing. rewrite CN. cbn [rbind]. eexists. eexists. eexists. split; [reflexivity|]. cbn [k_vault_signer]. intros VC VP MC MP EX.
  set (crs := [_; _; _; _; _]).
  destruct (creates_ok payer crs s) as (s1 & E1 & H1 & BL & PP & OT & NP).
  { exact ND. }
  { intros cr IC. unfold crs in IC. cbn [In] in IC. destruct IC as [<-|[<-|[<-|[<-|[<-|[]]]]]]; cbn [c_create cr_key cr_lamports cr_owner]; (split; [apply FR; cbn [In]; tauto|split; [apply RT|reflexivity]]). }
  { unfold cost, crs. cbn [zsum c_create cr_lamports]. change (376 + 12) with 388. change (640 + 12) with 652. change (1048576 + 12) with 1048588. change (65536 + 12) with 65548. unfold payer_of in *. lia. }
  { exact H. }
  exists s1. change (map cr_key crs) with [k; rq; eq; b; a] in OT, NP. specialize (NP ltac:(discriminate)).
  assert (SPL : forall v, a_prog (sget s v) = spl_id -> sget s1 v = sget s v).
  { intros v Q. apply OT; [intros ->; destruct PO as (PO & _); rewrite PO in Q; discriminate Q|]. intros IV. destruct (FR v IV) as (_ & Q' & _). rewrite Q' in Q. discriminate Q. }
  assert (TP : forall v t, token_at s v = Some t -> a_prog (sget s v) = spl_id) by (intros v t HT; unfold token_at in HT; destruct (Z.eqb_spec (a_prog (sget s v)) spl_id); [assumption|discriminate]).
  assert (UV : forall v mint, usable_vault s p v mint -> usable_vault s1 p v mint).
  { intros v mint (t & HT & U). exists t. pose proof (SPL v (TP _ _ HT)) as Q. rewrite (token_moved s s1 v Q), Q. auto. }
  assert (UM : forall x, is_mint s x -> is_mint s1 x). { intros x MX. unfold is_mint in *. rewrite (SPL x (proj1 MX)). exact MX. }
  assert (BB : forall x len, In (c_create rent (e_prog e) x (len - 12)) crs -> sget s1 x = mkAccount (e_prog e) (rent len) len DZero).
  { intros x len IX. apply BL in IX. cbn [c_create cr_key cr_lamports cr_space] in IX. replace (len - 12 + 12) with len in IX by lia. exact IX. }
  pose proof (BB k 388 ltac:(left; reflexivity)) as B0. pose proof (BB rq 652 ltac:(right; left; reflexivity)) as B1. pose proof (BB eq 1048588 ltac:(do 2 right; left; reflexivity)) as B2.
  pose proof (BB b 65548 ltac:(do 3 right; left; reflexivity)) as B3. pose proof (BB a 65548 ltac:(do 4 right; left; reflexivity)) as B4.
  assert (BK : forall x len lo, sget s1 x = mkAccount (e_prog e) (rent len) len DZero -> len mod 8 = 4 -> lo <= len -> blank_of e s1 lo x).
  { intros x len lo Q M LE. unfold blank_of, dexd. rewrite Q. cbn [a_prog a_data a_len]. rewrite Z.eqb_refl. auto. }
  destruct (initialize_works e c s1 (e_prog e) k cm pm cv pv None None None b a rq eq cl pl n 100 p EO H1) as (s2 & m & R & HM & AC).
  - cbv [wf_init ii_coin_lot ii_pc_lot ii_fee_rate ii_nonce ii_dust]. unfold u64, u16 in *. repeat split; lia.
  - exact ND.
  - eapply BK; [exact B0|reflexivity|lia].
  - rewrite B0. reflexivity.
  - eapply BK; [exact B1|reflexivity|lia].
  - eapply BK; [exact B2|reflexivity|lia].
  - eapply BK; [exact B3|reflexivity|lia].
  - eapply BK; [exact B4|reflexivity|lia].
  - exact PD.
  - apply UV. exact VC.
  - apply UV. exact VP.
  - apply UM. exact MC.
  - apply UM. exact MP.
  - intros x IX. cbn [In] in IX. destruct IX as [<-|[<-|[<-|[<-|IX]]]]; [rewrite B1|rewrite B2|rewrite B3|rewrite B4|]; try apply RT. cbn [a_lamports a_len].
    assert (IX' : In x [cv; pv; cm; pm]) by (cbn [In]; tauto). rewrite SPL; [apply EX; exact IX'|]. destruct IX as [<-|[<-|[<-|[<-|[]]]]]; [destruct VC as (t & HT & _); eauto|destruct VP as (t & HT & _); eauto|apply MC|apply MP].
  - exists s2, m. split; [exact E1|]. split; [exact H1|]. split; [exact R|]. split; [exact HM|]. pose proof (ac_keys _ _ _ _ _ _ _ _ _ _ _ _ _ _ _ _ _ AC) as K. pose proof (ac_numbers _ _ _ _ _ _ _ _ _ _ _ _ _ _ _ _ _ AC) as N.
    injection K as K1 K2 K3 K4 K5 K6 K7 K8 K9. assert (NE : m_nonce m = n) by congruence. split; [unfold keys_of; congruence|]. split; [rewrite NE; exact PD|]. split; [rewrite NE; exact AC|].
    unfold process_bytes in R. apply rbind_ok in R. destruct R as (i & _ & R). rewrite (process_len _ _ _ _ _ _ R), B1. reflexivity.
Qed.
Theorem init_oo_listed c s rent payer k m A L p w x : history e s -> seen e s k m A L -> ~ disabled m -> ~ permissioned m -> fresh s x ->
  (forall n, 0 < rent n /\ c_exempt c (rent n) n = true) -> payer_of s payer (rent 3228) ->
  exists s1, sys_create s payer (fst (c_init_oo e rent (keys_of k m p) w x)) = Ok s1 /\ history e s1 /\ works e c s1 (snd (c_init_oo e rent (keys_of k m p) w x)).
Proof.
  intros H SN ND NP FR RT PO. unfold c_init_oo. cbn [fst snd keys_of k_market]. destruct (create_ok s payer (c_create rent (e_prog e) x 3216)) as (s1 & E1 & PX & RL & B1 & PY & OT); cbn [c_create cr_key cr_lamports cr_owner]; try assumption; try apply RT; try reflexivity.
  { exact (wv_amt _ _ (wi_vlt _ _ (reachable_inv e EO s H))). }
  cbn [c_create cr_key cr_lamports cr_space] in *. change (3216 + 12) with 3228 in *. assert (H1 : history e s1) by (eapply reach_env; eassumption). exists s1. split; [exact E1|]. split; [exact H1|].
  assert (DK : forall y, y <> x -> D s1 y = D s y).
  { intros y NY. unfold dexd. destruct (Z.eq_dec y payer) as [->|N]; [rewrite PY; reflexivity|]. rewrite (OT y N NY). reflexivity. }
  destruct FR as (_ & F1 & _). assert (DX : D s x = None) by (unfold dexd; rewrite F1; replace (0 =? e_prog e) with false by (pose proof (eo_sys _ EO); lia); reflexivity).
  assert (NX : forall y d, D s y = Some d -> y <> x) by (intros y d HY ->; congruence).
  assert (DX1 : D s1 x = Some DZero) by (unfold dexd; rewrite B1; cbn [a_prog a_data]; rewrite Z.eqb_refl; reflexivity).
  assert (SN1 : seen e s1 k m A L).
  { destruct SN as [S1 (b & S2 & S2') (a & S3 & S3') (q & S4 & S4') S5 S6]. constructor.
    - rewrite (DK k (NX _ _ S1)). exact S1.
    - exists b. rewrite (DK _ (NX _ _ S2)). auto.
    - exists a. rewrite (DK _ (NX _ _ S3)). auto.
    - exists q. rewrite (DK _ (NX _ _ S4)). auto.
    - exact S5.
    - intros y oo. rewrite S6. split; intros (Q1 & Q2).
      + rewrite (DK _ (NX _ _ Q1)). auto.
      + rewrite (DK y) in Q1; [auto|]. intros ->. rewrite DX1 in Q1. discriminate Q1. }
  apply (init_oo_works e s1 k m A L (reachable_inv e EO s1 H1) SN1 c (e_prog e) x w None ND DX1).
  - rewrite B1. reflexivity.
  - rewrite B1. apply RT.
  - unfold permissioned in NP. unfold has_flag. pose proof (flags_any _ (ws_flags _ (wi_str _ _ (reachable_inv e EO s1 H1)) _ _ (sn_mkt _ _ _ _ _ _ SN1))) as F. cbn [In] in F.
    destruct F as [F|[F|[F|[F|[F|[F|[]]]]]]]; rewrite <- F in *; try reflexivity; exfalso; apply NP; reflexivity.
Qed.
End Listing.

Theorem trades_like_client e c s prog ks oo wallet payer sd price qty pc st ot cid limit ts sgn cw pw :
  let run ci := process_bytes e c s (ci_data ci) (as_given ci) in
  run (c_place prog ks oo wallet payer (mkOrderIx sd price qty pc st ot cid limit ts)) =
    run (b_new_order (k_market ks) oo (k_req_q ks) (k_event_q ks) (k_bids ks) (k_asks ks) wallet payer (k_coin_vault ks) (k_pc_vault ks) spl_id rent_id None prog sd price qty ot cid st limit pc ts) /\
  run (c_settle prog ks payer sgn oo cw pw) =
    run (b_settle_funds prog (k_market ks) spl_id oo (match sgn with Some x => x | None => payer end) (k_coin_vault ks) cw (k_pc_vault ks) pw None (k_vault_signer ks)) /\
  run (c_match prog ks cw pw) = Ok s.
Proof.
  cbv zeta. split; [reflexivity|]. split; [reflexivity|]. unfold process_bytes. change (ci_data _) with (pack (IMatchOrders 2)). rewrite pack_unpack; [reflexivity|]. cbn. unfold u16. lia.
Qed.
