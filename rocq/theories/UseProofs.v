(** The rights of the authorities and of newcomers can be used, and what a disabled market has earned cannot be collected (C79). *)
From Coq Require Import Permutation.
From Verif Require Import Base BaseProofs Fees ListSum Queue QueueProofs Codec CodecProofs Critbit CritbitProofs CritbitSlab Market Matching MatchSteps MatchSpec MatchFacts MatchReport MatchRefine MatchAsk MatchBid MatchRun Ledger LedgerSums LedgerSteps Slots
  Core CoreInv CoreNew CoreOrder CoreCancel CoreConsume CoreSettle CoreFrame Instr InstrProofs Store Process StoreProofs World WorldInv WorldLoad WorldRun WorldStep WorldStep2 WorldConsume WorldInit WorldMain WorldSpec WorldFacts WorldFwd
  WorldRange WorldCancel WorldPay WorldTrade WorldCrank WorldOpen WorldAuth WorldRights WorldSizes WorldExit WorldIsolate WorldSupply PlaceSpec WorldPlace LifeSpec LifeProofs LifeSteps LifeMain AbsentSpec AbsentProofs StatementSpec StatementProofs IncomeSpec IncomeProofs StrandSpec StrandProofs.

Section Use.
Variable e : env.
Hypothesis EO : env_ok e.
Notation D := (dexd e).
Lemma flags_on s k m : wstruct (D s) -> D s k = Some (DMarket m) -> ~ disabled m -> check_market_flags (m_flags m) false = Ok tt.
Proof. intros W HM ND. apply flags_enabled; [exact (ws_flags _ W _ _ HM)|]. unfold disabled in ND. destruct (Z.testbit (m_flags m) 7); [congruence|reflexivity]. Qed.

Theorem sweep_works s k m c dst p : history e s -> D s k = Some (DMarket m) -> usable m -> ~ disabled m -> e_pda e (m_nonce m) k = Some p ->
  wallet s dst (m_pc_mint m) (m_pc_fees m) -> thawed s (m_pc_vault m) ->
  exists s', process e c s ISweepFees (map (fun y => mkMeta y false) [k; m_pc_vault m] ++ mkMeta fee_sweeper true :: map (fun y => mkMeta y false) [dst; p; spl_id]) = Ok s'.
Proof.
  intros HI HM P ND PD (td & X1 & X2 & X3 & X4 & X5) (t1 & TP & SP). pose proof (reachable_inv e EO s HI) as WI. pose proof (wi_str _ _ WI) as W.
  destruct (market_seen e EO s k m HI HM P) as (A & L & SN). destruct (seen_state e s k m A L WI SN P) as (seq & o & MS).
  pose proof (ci_mkt _ _ _ _ (ms_inv _ _ _ _ _ _ _ MS)) as U. rewrite (ms_mkt _ _ _ _ _ _ _ MS) in U. destruct U as (U0 & U1 & U2). unfold u64 in *.
  destruct (vault_cover e s k m WI HM P) as (tc' & tp' & _ & TP' & _ & PO). assert (tp' = t1) by congruence. subst tp'. unfold pc_owed in PO.
  destruct (wi_vlt _ _ WI) as [VA VC VP]. destruct (VP k m HM) as (tp & [p1 p2 p3 (p4 & p4') p5 p6]). assert (tp = t1) by congruence. subst tp. rewrite PD in p3. injection p3 as OP.
  pose proof (quiet_put e EO _ _ (DMarket (set_pc_fees m 0)) _ HM) as Q.
  destruct (send_fwd (put_data s k (DMarket (set_pc_fees m 0))) (m_pc_vault m) dst p (m_pc_fees m) t1 td) as (s' & T); try (rewrite (qu_tok _ _ Q); assumption); try assumption; try congruence; try lia.
  exists s'. cbn [process map app]. unfold proc_sweep. cbn [mk mk_signer]. rewrite (load_market_fwd e s k m HM false (flags_on _ _ _ W HM ND)). cbn [rbind].
  unfold load_pc_vault, load_pc_wallet. rewrite (load_token_fwd _ _ _ TP p2 SP), (load_token_fwd _ _ _ X1 X2 X3). cbn [rbind]. rewrite X4, !Z.eqb_refl. cbn [check rbind].
  unfold check_vault_signer. rewrite (ws_own _ W _ _ HM), PD. cbn [ok_or rbind]. rewrite Z.eqb_refl. cbn [check rbind]. unfold check_spl, check_signer. cbn [mk_signer]. rewrite !Z.eqb_refl. cbn [check rbind]. exact T.
Qed.
Theorem disable_works s k m c : anytime e s -> D s k = Some (DMarket m) -> ~ disabled m -> exists s', process e c s IDisableMarket [mkMeta k false; mkMeta disable_authority true] = Ok s'.
Proof.
  intros AT HM ND. pose proof (anytime_struct e EO s AT) as W. eexists. cbn [process]. unfold proc_disable. cbn [mk mk_signer]. rewrite (load_market_fwd e s k m HM false (flags_on _ _ _ W HM ND)). cbn [rbind].
  unfold check_signer. cbn [mk_signer check rbind]. rewrite Z.eqb_refl. reflexivity.
Qed.
Theorem open_works s k m c x w rent : anytime e s -> D s k = Some (DMarket m) -> ~ disabled m ->
  D s x = Some DZero -> a_len (sget s x) = 3228 -> c_exempt c (a_lamports (sget s x)) 3228 = true ->
  exists s' oo, process e c s IInitOO (mkMeta x false :: mkMeta w true :: mkMeta k false :: mkMeta rent false :: (if Z.testbit (m_flags m) 9 then [mkMeta (m_oo_auth m) true] else [])) = Ok s' /\
    D s' x = Some (DOO oo) /\ blank_for k w oo.
Proof.
  intros AT HM ND DZ LN RE. pose proof (anytime_struct e EO s AT) as W.
  exists (put_data s x (DOO (oo_fresh k w))), (oo_fresh k w). split; [|split].
  - cbn [process]. unfold proc_init_oo. cbn [mk mk_signer].
    assert (HF : has_flag (m_flags m) AF_Permissioned = Z.testbit (m_flags m) 9).
    { unfold has_flag, AF_Permissioned. change 512 with (2 ^ 9). destruct (Z.testbit (m_flags m) 9) eqn:B.
      - destruct (Z.eqb_spec (Z.land (m_flags m) (2 ^ 9)) 0) as [E|N]; [|reflexivity]. exfalso. assert (X : Z.testbit (Z.land (m_flags m) (2 ^ 9)) 9 = true) by (rewrite Z.land_spec, B; reflexivity). rewrite E in X. discriminate.
      - replace (Z.land (m_flags m) (2 ^ 9)) with 0; [reflexivity|]. symmetry. apply Z.bits_inj_0. intros j. rewrite Z.land_spec. destruct (Z.eq_dec j 9) as [->|N]; [rewrite B; reflexivity|]. rewrite Z.pow2_bits_false by lia. apply andb_false_r. }
    set (au := if Z.testbit (m_flags m) 9 then Some (m_oo_auth m) else None).
    assert (LO : load_orders e s m x (Some w) (Some c) au = Ok (oo_fresh k w)).
    { assert (OA : oo_authority m = au) by (unfold oo_authority, au; rewrite HF; reflexivity).
      unfold load_orders. apply dexd_owned in DZ. destruct DZ as [HP HD]. rewrite HP, HD, LN, Z.eqb_refl. change (3228 =? OO_LEN) with true. cbn [check rbind].
      change (oo_flags oo_zero =? 0) with true. cbv iota. rewrite OA. replace (opt_eqb au au) with true by (unfold opt_eqb; destruct au; [rewrite Z.eqb_refl|]; reflexivity). cbn [check rbind ok_or]. rewrite RE. cbn [check rbind].
      rewrite (ws_own _ W _ _ HM). unfold oo_init. change (oo_flags oo_zero =? 0) with true. cbn [check rbind oo_zero oo_bid_bits oo_orders oo_cids oo_rebates]. change (mkOO OO_FLAGS k w 0 0 0 0 U128_MAX 0 (repeat 0 128) (repeat 0 128) 0) with (oo_fresh k w).
      unfold oo_check_flags, oo_fresh. cbn [oo_flags oo_market oo_owner]. change (flags_known OO_FLAGS) with true. change (OO_FLAGS =? OO_FLAGS) with true. rewrite !Z.eqb_refl. reflexivity. }
    unfold au in LO. destruct (Z.testbit (m_flags m) 9); unfold check_signer; cbn [mk_signer check rbind mk]; rewrite (load_market_fwd e s k m HM false (flags_on _ _ _ W HM ND)); cbn [rbind]; rewrite LO; reflexivity.
  - rewrite (dexd_put_owned _ _ _ _ _ _ DZ), Z.eqb_refl. reflexivity.
  - unfold blank_for, oo_fresh. cbn [oo_flags oo_market oo_owner oo_coin_free oo_coin_total oo_pc_free oo_pc_total oo_rebates]. repeat (split; [reflexivity|]). intros i Hi. unfold is_free. cbn [oo_free_bits]. change U128_MAX with (Z.ones 128). apply Z.ones_spec_low. assumption.
Qed.

(** ** A disabled market *)
Lemma no_sweep s k m c ms s' : anytime e s -> D s k = Some (DMarket m) -> disabled m -> key_at ms 0 = Some k -> process e c s ISweepFees ms <> Ok s'.
Proof.
  intros AT HM DI K H. destruct (sweep_signed e EO s c ms s' AT H) as (k0 & m0 & dst & p & spl & KM & _ & HM0 & ND & _). rewrite (key_at_map _ _ _ KM) in K. injection K as ->. assert (m0 = m) by congruence. subst. contradiction.
Qed.
Lemma stuck_story k s E s' : stretch e k s E s' -> history e s -> forall m A L, seen e s k m A L -> usable m -> disabled m ->
  history e s' /\ exists m' A' L', seen e s' k m' A' L' /\ same_config m m' /\ disabled m' /\ m_pc_fees m <= m_pc_fees m'.
Proof.
  intros ST HI m A L SN P DI. induction ST as [|E s1 c b ms E1 ST IH G SZ HB LG Q|E s1 s2 ST IH R].
  - split; [exact HI|]. exists m, A, L. split; [exact SN|]. split; [apply same_config_refl|]. split; [exact DI|lia].
  - destruct IH as (HI1 & m1 & A1 & L1 & SN1 & SC1 & D1 & U1). assert (P1 : usable m1) by (destruct SC1 as (? & ? & ? & ? & ? & ->); exact P). split; [apply reach_tx; assumption|].
    destruct (process_bytes e c s1 b ms) as [s2|?|] eqn:PB; [|unfold transact; rewrite PB; eauto 9..].
    pose proof PB as PB1. unfold process_bytes in PB1. apply rbind_ok in PB1. destruct PB1 as (i & U & H). destruct (unpack b) as [i0|] eqn:UB; cbn [ok_or] in U; [|discriminate]. injection U as ->.
    rewrite (did e b i c s1 s2 ms UB H) in *. destruct (unpack_pack _ _ HB UB) as [WF _]. pose proof (sn_mkt _ _ _ _ _ _ SN1) as HM1.
    destruct (seen_after e EO _ _ _ _ _ _ _ _ _ HI1 G SZ LG WF H SN1 P1) as (m2 & A2 & L2 & SN2 & SC2). pose proof (sn_mkt _ _ _ _ _ _ SN2) as HM2.
    exists m2, A2, L2. split; [exact SN2|]. split; [eapply same_config_trans; eassumption|]. split.
    + destruct (market_kept e EO s1 c i ms s2 k m1 (history_anytime e s1 HI1) H HM1) as (m3 & HM3 & _ & F). assert (m3 = m2) by congruence. subst m3.
      destruct F as [F|(_ & _ & ND & _)]; [unfold disabled in *; rewrite F; assumption|contradiction].
    + assert (DEC : i = ISweepFees \/ i <> ISweepFees) by (destruct i; (left; reflexivity) || (right; discriminate)). destruct DEC as [->|NS].
      * cbn [process] in H. destruct (sweep_deed e EO s1 ms s2 (wi_str _ _ (reachable_inv e EO s1 HI1)) H) as (k0 & m0 & pw & p & spl & KM & _ & EN & DE & _).
        destruct (Z.eq_dec k k0) as [<-|N].
        { exfalso. pose proof (de_mkt _ _ _ _ _ _ _ DE). assert (m0 = m1) by congruence. subst m0. eapply enabled_not; eassumption. }
        assert (X : D s2 k = D s1 k) by (eapply de_mkts; eauto). assert (m2 = m1) by congruence. subst m2. exact U1.
      * destruct (fees_kept e EO s1 c i ms s2 k m1 HI1 G LG WF H NS HM1 P1) as (m3 & HM3 & LE). assert (m3 = m2) by congruence. subst m3. lia.
  - destruct IH as (HI1 & m1 & A1 & L1 & SN1 & SC1 & D1 & U1). assert (P1 : usable m1) by (destruct SC1 as (? & ? & ? & ? & ? & ->); exact P).
    split; [eapply reach_env; eassumption|]. destruct (env_seen e EO _ _ _ _ _ _ HI1 R SN1 P1) as (A2 & L2 & SN2 & EV & SAME). exists m1, A2, L2. split; [exact SN2|]. split; [exact SC1|]. split; assumption.
Qed.
Theorem fees_stuck k s E s' m A L m' A' L' : history e s -> stretch e k s E s' -> seen e s k m A L -> usable m -> disabled m -> seen e s' k m' A' L' ->
  m_pc_fees m <= m_pc_fees m' /\ m_pc_vault m' = m_pc_vault m /\ holds s' (m_pc_vault m) (m_pc_deposits m' + m_rebates m' + m_pc_fees m) /\
  forall c ms s2, key_at ms 0 = Some k -> process e c s' ISweepFees ms <> Ok s2.
Proof.
  intros HI ST SN P DI SN'. destruct (stuck_story k s E s' ST HI m A L SN P DI) as (HI' & m2 & A2 & L2 & SN2 & SC & D2 & U).
  assert (EM : m2 = m') by (pose proof (sn_mkt _ _ _ _ _ _ SN2); pose proof (sn_mkt _ _ _ _ _ _ SN'); congruence). subst m2. pose proof (sn_mkt _ _ _ _ _ _ SN') as HM'.
  assert (P' : usable m' /\ m_pc_vault m' = m_pc_vault m) by (destruct SC as (? & ? & ? & ? & ? & ->); split; [exact P|reflexivity]). destruct P' as [P' EV].
  split; [exact U|]. split; [exact EV|]. split.
  - destruct (vault_cover e s' k m' (reachable_inv e EO s' HI') HM' P') as (tc & tp & _ & T & _ & PO). rewrite <- EV. exists tp. split; [exact T|]. unfold pc_owed in PO. lia.
  - intros c ms s2 K. eapply no_sweep; try eassumption. apply history_anytime. exact HI'.
Qed.
End Use.
