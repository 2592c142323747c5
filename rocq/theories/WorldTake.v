(** When a SendTake, a fee sweep, the opening of an account and the disabling of a market are accepted. *)
From Coq Require Import Permutation.
From Verif Require Import Base BaseProofs Fees ListSum Queue QueueProofs Codec CodecProofs Critbit CritbitProofs CritbitSlab Market Matching MatchSteps MatchRefine MatchAsk MatchBid MatchRun MatchSpec Ledger LedgerSteps LedgerRun MatchReport MatchOrder MatchFacts Slots Core CoreInv CoreNew CoreFrame Instr InstrProofs Store Process StoreProofs World WorldInv WorldLoad WorldRun WorldStep WorldStep2 WorldInit WorldMain WorldSpec WorldFacts WorldFwd WorldCancel WorldPay OpenSpec PlaceSpec TakeSpec CorePlace CoreTake WorldPlace.

Lemma coin_wallet_fwd s m v t : token_at s v = Some t -> a_len (sget s v) = 165 -> t_state t = 1 -> t_mint t = m_coin_mint m -> load_coin_wallet s m v = Ok t.
Proof. intros T Ln St M. unfold load_coin_wallet. rewrite (load_token_fwd _ _ _ T Ln St). cbn [rbind]. rewrite M, Z.eqb_refl. reflexivity. Qed.
Lemma pc_wallet_fwd s m v t : token_at s v = Some t -> a_len (sget s v) = 165 -> t_state t = 1 -> t_mint t = m_pc_mint m -> load_pc_wallet s m v = Ok t.
Proof. intros T Ln St M. unfold load_pc_wallet. rewrite (load_token_fwd _ _ _ T Ln St). cbn [rbind]. rewrite M, Z.eqb_refl. reflexivity. Qed.

Section Take.
Variable e : env.
Hypothesis EO : env_ok e.
Notation D := (dexd e).
Variables (s : store) (k : Z) (m : market) (A : astate) (L : list (Z * open_orders)).
Hypothesis (WI : winv e s) (SN : seen e s k m A L) (P : usable m).
Let HM := sn_mkt _ _ _ _ _ _ SN.
Lemma enabled_flags : ~ disabled m -> check_market_flags (m_flags m) false = Ok tt.
Proof. intros N. apply flags_enabled; [exact (ws_flags _ (wi_str _ _ WI) _ _ HM)|]. unfold disabled in N. destruct (Z.testbit (m_flags m) 7); [congruence|reflexivity]. Qed.

Theorem take_succeeds c sd price qty pc limit cw pw w p disc q : ~ disabled m ->
  0 < price < B64 -> 0 < qty < B64 -> 0 < pc < B64 -> 0 <= limit < 65536 ->
  let dep := may_spend sd qty pc (m_coin_lot m) in let src := spends_from sd cw pw in let dst := receives_in sd cw pw in
  dep < B64 -> can_pay s src w (pays_in m sd) dep -> wallet s dst (pays_out m sd) (held m sd) -> discount_ok s w disc ->
  (forall v, In v [cw; pw] -> v <> m_coin_vault m /\ v <> m_pc_vault m) -> ~ In w [k; m_req_q m; m_event_q m; m_bids m; m_asks m] ->
  e_pda e (m_nonce m) k = Some p -> thawed s (m_coin_vault m) -> thawed s (m_pc_vault m) ->
  (forall t, token_at s (pays_into m sd) = Some t -> t_amount t + dep < B64) ->
  D s (m_event_q m) = Some (DEventQ q) ->
  zlen (a_evs A) + events_needed (book_of A (other sd)) sd price 0 AbortTransaction limit <= zlen (q_buf q) ->
  exists s' spent gain, 0 <= spent <= dep /\ 0 <= gain /\ 
    moves s s' [(src, pays_into m sd, spent); (pays_from m sd, dst, paid_out sd gain (m_coin_lot m))] /\
    forall mc mp, process e c s (ISendTake (mkTakeIx sd price qty pc mc mp limit))
      (mkMeta k false :: mkMeta (m_req_q m) false :: mkMeta (m_event_q m) false :: mkMeta (m_bids m) false :: mkMeta (m_asks m) false ::
       mkMeta cw false :: mkMeta pw false :: mkMeta w true :: map (fun y => mkMeta y false) ([m_coin_vault m; m_pc_vault m; spl_id; p] ++ disc)) =
      if minimum sd mc mp <=? gain then Ok s' else Err EMinAmountNotMet.
Proof.
  intros NDI HP HQT HPC HLM dep src dst LB (tp & T1 & T2 & T3 & T4 & T5 & T6) (tw & W1 & W2 & W3 & W4 & W5) DO NV NH PD (tc1 & TC & SC) (tp1 & TP & SP) RM HQ RQ.
  pose proof (wi_str _ _ WI) as W. destruct (seen_state e s k m A L WI SN P) as (seq & o & MS).
  pose proof (ms_mkt _ _ _ _ _ _ _ MS) as EM. pose proof (ms_bids _ _ _ _ _ _ _ MS) as HB. pose proof (ms_asks _ _ _ _ _ _ _ MS) as HA. pose proof (ms_evq _ _ _ _ _ _ _ MS) as HE.
  pose proof (ms_req _ _ _ _ _ _ _ MS) as HR. pose proof (ms_inv _ _ _ _ _ _ _ MS) as C.
  assert (q = ob_eq o) by congruence. subst q.
  pose proof (enabled_flags NDI) as FE.
  destruct (load_discount_fwd s k w disc DO) as (da & t & HD & HT).
  destruct (send_take_accepted o seq L A t sd price qty pc limit C HP HQT HPC HLM) as (o' & spent & gain & B1 & B2 & B3 & HC); rewrite ?EM; try assumption.
  rewrite EM in B1, B3, HC. fold dep in B1. set (out := paid_out sd gain (m_coin_lot m)) in *.
  assert (EO2 : o = mkObs (ob_bids o) (ob_asks o) m (ob_eq o)) by (rewrite <- EM; destruct o; reflexivity).
  assert (NB : m_bids m <> m_asks m) by (apply P).
  pose proof (write_obs_D e s k m _ _ _ _ HM NB HB HA HE HR o') as V1. pose proof (write_obs_quiet e EO s k m _ _ _ _ HM NB HB HA HE HR o') as Q1.
  set (s1 := write_obs s k (m_bids m) (m_asks m) (m_event_q m) o') in *. set (rq' := (0, wadd seq 1)) in *.
  assert (R1 : exists d, D s1 (m_req_q m) = Some d).
  { rewrite V1. unfold overlay. repeat match goal with |- context [if ?b then _ else _] => destruct b end; eauto. }
  destruct R1 as (d1 & R1). pose proof (quiet_put e EO _ _ (DReqQ rq') _ R1) as Q2. set (s2 := put_data s1 (m_req_q m) (DReqQ rq')) in *.
  pose proof (quiet_trans _ _ _ Q1 Q2) as Q.
  destruct (wi_vlt _ _ WI) as [VA VC VP]. destruct (VC k m HM) as (tc & [c1 c2 c3 c4 c5 c6]). destruct (VP k m HM) as (tq & [p1 p2 p3 p4 p5 p6]).
  assert (tc1 = tc) by congruence. assert (tp1 = tq) by congruence. subst tc1 tp1.
  destruct (vault_cover e s k m WI HM P) as (tc' & tp' & X1 & X2 & CV1 & CV2). assert (tc' = tc) by congruence. assert (tp' = tq) by congruence. subst tc' tp'.
  destruct (ci_mkt _ _ _ _ C) as (U1 & U2 & U3). rewrite EM in U1, U2, U3. unfold u64 in U1, U2, U3. unfold pc_owed in CV2.
  (* the vault paid into, the vault paid from *)
  set (ti := match sd with Bid => tq | Ask => tc end). set (to := match sd with Bid => tc | Ask => tq end).
  assert (TI : token_at s (pays_into m sd) = Some ti /\ t_state ti = 1 /\ t_mint ti = pays_in m sd) by (unfold ti, pays_into, pays_in; destruct sd; auto).
  assert (TO : token_at s (pays_from m sd) = Some to /\ t_state to = 1 /\ t_mint to = pays_out m sd /\ t_owner to = p /\ locked_token to /\ held m sd <= t_amount to).
  { assert (O1 : t_owner tc = p) by congruence. assert (O2 : t_owner tq = p) by congruence.
    unfold to, pays_from, pays_out, held; destruct sd; (split; [assumption|]); (split; [assumption|]); (split; [assumption|]); (split; [assumption|]); (split; [assumption|lia]). }
  destruct TI as (TI1 & TI2 & TI3). destruct TO as (TO1 & TO2 & TO3 & TO4 & TO5 & TO6).
  assert (NS : src <> pays_into m sd /\ src <> pays_from m sd).
  { destruct (NV src) as [N1 N2]; [unfold src, spends_from; destruct sd; cbn [In]; auto|]. unfold pays_into, pays_from. destruct sd; auto. }
  assert (NDS : dst <> pays_into m sd /\ dst <> pays_from m sd).
  { destruct (NV dst) as [N1 N2]; [unfold dst, receives_in; destruct sd; cbn [In]; auto|]. unfold pays_into, pays_from. destruct sd; auto. }
  destruct NS as [NS1 NS2]. destruct NDS as [ND1 ND2].
  assert (TR : exists s3, transfer_in s2 [k; m_req_q m; m_event_q m; m_bids m; m_asks m] src (pays_into m sd) w spent = Ok s3).
  { eapply transfer_in_fwd; try (rewrite (qu_tok _ _ Q); eassumption); try eassumption; try congruence; try lia.
    - destruct T6 as [[X Y]|X]; [left; split; [exact X|lia]|right; exact X].
    - specialize (RM ti TI1). lia. }
  destruct TR as (s3 & TR).
  pose proof (transfer_in_ok e (eo_spl _ EO) _ _ _ _ _ _ _ TR) as TRO.
  assert (AFTER : moves s s3 [(src, pays_into m sd, spent)] /\ exists to3, token_at s3 (pays_from m sd) = Some to3 /\ t_state to3 = 1 /\ t_mint to3 = t_mint to /\ t_owner to3 = p /\ t_delegate to3 = None /\ t_amount to <= t_amount to3).
  { pose proof (moves_quiet _ _ (qu_tok _ _ Q)) as M0. assert (TO1' : token_at s2 (pays_from m sd) = Some to) by (rewrite (qu_tok _ _ Q); exact TO1).
    destruct TRO as [[E0 ->]|(NZ & TF & _)].
    - split.
      + intros v. specialize (M0 v). destruct (token_at s v); [|exact M0]. destruct M0 as (t' & m1 & m2 & m3 & m4 & m5). exists t'. do 4 (split; [assumption|]). cbn [zsum got] in *. rewrite E0. destruct (v =? pays_into m sd), (v =? src); lia.
      + exists to. destruct TO5 as [? ?]. repeat (split; [auto; fail|]). lia.
    - pose proof (moves_transferred e _ _ _ _ _ _ TF) as M1. split; [exact (moves_app _ _ _ _ _ M0 M1)|].
      destruct (transferred_tdelta e _ _ _ _ _ _ TF _ _ TO1' TO5) as (to3 & Y1 & Y2 & Y3 & (Y4 & Y5) & _). exists to3.
      pose proof (M1 (pays_from m sd)) as MV. rewrite TO1' in MV. destruct MV as (to4 & Z1 & _ & _ & Z4 & Z5). assert (to4 = to3) by congruence. subst to4. cbn [zsum got] in Z5.
      split; [assumption|]. split; [congruence|]. split; [congruence|]. split; [congruence|]. split; [assumption|]. replace (pays_from m sd =? src) with false in Z5 by lia. destruct (pays_from m sd =? pays_into m sd); lia. }
  destruct AFTER as (MV & to3 & Y1 & Y2 & Y3 & Y4 & Y5 & Y6).
  pose proof (MV dst) as MD. rewrite W1 in MD. destruct MD as (tw3 & D1 & D2 & D3 & D4 & D5). cbn [zsum got] in D5. replace (dst =? pays_into m sd) with false in D5 by lia.
  destruct (send_fwd s3 (pays_from m sd) dst p out to3 tw3) as (s4 & TS); try assumption; try congruence; try lia.
  { intros _. destruct (dst =? src); lia. }
  pose proof (moves_transferred e _ _ _ _ _ _ (send_from_vault_ok e (eo_spl _ EO) _ _ _ _ _ _ TS)) as M2.
  exists (if out =? 0 then s3 else s4), spent, gain. split; [assumption|]. split; [assumption|]. split.
  { destruct (Z.eqb_spec out 0) as [E0|N0]; [|exact (moves_app _ _ _ _ _ MV M2)].
    intros v. specialize (MV v). destruct (token_at s v); [|exact MV]. destruct MV as (t' & m1 & m2 & m3 & m4 & m5). exists t'. do 4 (split; [assumption|]). cbn [zsum got] in *. fold out. rewrite E0. destruct (v =? dst), (v =? pays_from m sd); lia. }
  intros mc mp. cbn [process map app]. unfold proc_send_take. cbn [mk mk_signer]. rewrite HD. cbn [rbind]. rewrite (load_market_fwd e s k m HM false FE). cbn [rbind]. unfold check_signer. cbn [mk_signer check rbind].
  rewrite (ws_own _ W _ _ HM), HT. cbn [rbind].
  assert (XR : load_req_q s m (m_req_q m) = Ok (0, seq)) by (unfold load_req_q; apply dexd_owned in HR; destruct HR as [_ ->]; rewrite Z.eqb_refl; reflexivity). rewrite XR. cbn [rbind].
  rewrite (load_evq_fwd e s m _ HE). cbn [rbind].
  assert (LW : exists a b, load_coin_wallet s m cw = Ok a /\ load_pc_wallet s m pw = Ok b).
  { unfold src, dst, spends_from, receives_in, pays_in, pays_out in *. destruct sd.
    - exists tw, tp. split; [apply coin_wallet_fwd|apply pc_wallet_fwd]; assumption.
    - exists tp, tw. split; [apply coin_wallet_fwd|apply pc_wallet_fwd]; assumption. }
  destruct LW as (? & ? & -> & ->). cbn [rbind].
  unfold load_coin_vault, load_pc_vault. rewrite (load_token_fwd _ _ _ c1 c2 SC), (load_token_fwd _ _ _ p1 p2 SP). cbn [rbind]. rewrite !Z.eqb_refl. cbn [check rbind].
  unfold check_spl. rewrite Z.eqb_refl. cbn [check rbind].
  assert (VS : check_vault_signer e m p = Ok tt) by (unfold check_vault_signer; rewrite (ws_own _ W _ _ HM), PD; cbn [ok_or rbind]; rewrite Z.eqb_refl; reflexivity).
  rewrite VS. cbn [rbind]. rewrite (load_slab_fwd e s Bid _ _ HB), (load_slab_fwd e s Ask _ _ HA). cbn [rbind]. rewrite <- EO2, HC.
  destruct (minimum sd mc mp <=? gain); cbn [rbind]; [|reflexivity]. cbv zeta. fold s1 s2. cbn [ti_side map mk].
  unfold src, dst, spends_from, receives_in, pays_into, pays_from in *. destruct sd; rewrite TR; cbn [rbind]; rewrite TS; destruct (out =? 0); reflexivity.
Qed.

Theorem sweep_succeeds c pw p : ~ disabled m -> wallet s pw (m_pc_mint m) (m_pc_fees m) -> thawed s (m_pc_vault m) -> e_pda e (m_nonce m) k = Some p ->
  exists s', process e c s ISweepFees [mkMeta k false; mkMeta (m_pc_vault m) false; mkMeta fee_sweeper true; mkMeta pw false; mkMeta p false; mkMeta spl_id false] = Ok s'.
Proof.
  intros NDI (tw & W1 & W2 & W3 & W4 & W5) (tp1 & TP & SP) PD. pose proof (wi_str _ _ WI) as W. pose proof (enabled_flags NDI) as FE.
  destruct (wi_vlt _ _ WI) as [VA VC VP]. destruct (VP k m HM) as (tq & [p1 p2 p3 (p4 & p4') p5 p6]). assert (tp1 = tq) by congruence. subst tp1.
  destruct (vault_cover e s k m WI HM P) as (tc' & tp' & X1 & X2 & CV1 & CV2). assert (tp' = tq) by congruence. subst tp'.
  destruct (seen_state e s k m A L WI SN P) as (seq & o & MS). pose proof (ms_mkt _ _ _ _ _ _ _ MS) as EM.
  destruct (ci_mkt _ _ _ _ (ms_inv _ _ _ _ _ _ _ MS)) as (U1 & U2 & U3). rewrite EM in U1, U2, U3. unfold u64 in U1, U2, U3. unfold pc_owed in CV2.
  pose proof (quiet_put e EO _ _ (DMarket (set_pc_fees m 0)) _ HM) as Q.
  cbn [process]. unfold proc_sweep. cbn [mk mk_signer]. rewrite (load_market_fwd e s k m HM false FE). cbn [rbind].
  unfold load_pc_vault. rewrite (load_token_fwd _ _ _ p1 p2 SP). cbn [rbind]. rewrite Z.eqb_refl. cbn [check rbind]. rewrite (pc_wallet_fwd _ _ _ _ W1 W2 W3 W4). cbn [rbind].
  assert (VS : check_vault_signer e m p = Ok tt) by (unfold check_vault_signer; rewrite (ws_own _ W _ _ HM), PD; cbn [ok_or rbind]; rewrite Z.eqb_refl; reflexivity).
  rewrite VS. cbn [rbind]. unfold check_spl, check_signer. cbn [mk_signer]. rewrite !Z.eqb_refl. cbn [check rbind].
  eapply send_fwd; try (rewrite (qu_tok _ _ Q); eassumption); try assumption; try congruence; lia.
Qed.

Theorem disable_succeeds c : ~ disabled m -> exists s', process e c s IDisableMarket [mkMeta k false; mkMeta disable_authority true] = Ok s'.
Proof.
  intros NDI. cbn [process]. unfold proc_disable. cbn [mk mk_signer]. rewrite (load_market_fwd e s k m HM false (enabled_flags NDI)). cbn [rbind].
  unfold check_signer. cbn [mk_signer]. rewrite !Z.eqb_refl. cbn [check rbind]. eauto.
Qed.

(** Opening an account: on a permissioned market the market's authority has to sign as well. *)
Theorem init_oo_succeeds c x w rent auth : ~ disabled m -> D s x = Some DZero -> a_len (sget s x) = 3228 -> c_exempt c (a_lamports (sget s x)) 3228 = true ->
  auth = (if has_flag (m_flags m) AF_Permissioned then Some (m_oo_auth m) else None) ->
  exists s', process e c s IInitOO (mkMeta x false :: mkMeta w true :: mkMeta k false :: mkMeta rent false :: match auth with Some a => [mkMeta a true] | None => [] end) = Ok s'.
Proof.
  intros NDI DZ LN RE AU. cbn [process]. unfold proc_init_oo. cbn [mk mk_signer].
  assert (X : exists oo, load_orders e s m x (Some w) (Some c) auth = Ok oo).
  { exists (oo_fresh (m_own m) w). assert (OA : oo_authority m = auth) by (unfold oo_authority; rewrite AU; reflexivity).
    unfold load_orders. apply dexd_owned in DZ. destruct DZ as [HP HD]. rewrite HP, HD, LN, Z.eqb_refl. change (3228 =? OO_LEN) with true. cbn [check rbind].
    change (oo_flags oo_zero =? 0) with true. cbv iota. rewrite OA. assert (OE : opt_eqb auth auth = true) by (destruct auth; cbn [opt_eqb]; [apply Z.eqb_refl|reflexivity]). rewrite OE. cbn [check rbind ok_or]. rewrite RE. cbn [check rbind].
    unfold oo_init. change (oo_flags oo_zero =? 0) with true. cbn [check rbind oo_zero oo_bid_bits oo_orders oo_cids oo_rebates]. change (mkOO OO_FLAGS (m_own m) w 0 0 0 0 U128_MAX 0 (repeat 0 128) (repeat 0 128) 0) with (oo_fresh (m_own m) w).
    unfold oo_check_flags, oo_fresh. cbn [oo_flags oo_market oo_owner]. change (flags_known OO_FLAGS) with true. change (OO_FLAGS =? OO_FLAGS) with true. rewrite !Z.eqb_refl. reflexivity. }
  destruct X as (oo & LO). destruct auth as [a|]; cbn [mk mk_signer]; unfold check_signer; cbn [mk_signer check rbind]; rewrite (load_market_fwd e s k m HM false (enabled_flags NDI)); cbn [rbind]; rewrite LO; cbn [rbind]; eauto.
Qed.
End Take.
