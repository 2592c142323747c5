(** SendTake: with the right accounts it works or the stated reason is true; whatever the accounts, its errors are true. *)
From Coq Require Import Permutation.
From Verif Require Import Base BaseProofs Fees ListSum Queue QueueProofs Codec CodecProofs Critbit CritbitProofs CritbitSlab Market Matching MatchSteps MatchRefine MatchAsk MatchBid MatchRun MatchSpec Ledger LedgerSteps LedgerRun MatchReport MatchOrder MatchFacts Slots Core CoreInv CoreNew CoreFrame Instr InstrProofs Store Process StoreProofs World WorldInv WorldLoad WorldRun WorldStep WorldStep2 WorldInit WorldMain WorldSpec WorldFacts WorldFwd WorldCancel WorldPay OpenSpec PlaceSpec TakeSpec CorePlace CoreTake CoreBlame WorldTrade WorldPlace WorldTake ErrorSpec ErrorProofs TakeErrorSpec TakeBlame.

Lemma send_judged s v dst p amt tv td : token_at s v = Some tv -> token_at s dst = Some td -> t_state tv = 1 -> t_state td = 1 -> t_mint tv = t_mint td -> t_owner tv = p -> t_delegate tv = None ->
  0 <= amt <= t_amount tv -> (exists s', send_from_vault s v dst p amt = Ok s') \/ (send_from_vault s v dst p amt = Err ETransferFailed /\ B64 <= t_amount td + amt).
Proof.
  intros T1 T2 S1 S2 M O DL AM. destruct (Z_lt_le_dec (t_amount td + amt) B64) as [RM|RM]; [left; eapply send_fwd; eauto|].
  unfold send_from_vault. destruct (spl_transfer s v dst p true amt) as [s'| |]; [left; eauto|right; auto|right; auto].
Qed.

Section Take.
Variable e : env.
Hypothesis EO : env_ok e.
Notation D := (dexd e).
Variables (s : store) (k : Z) (m : market) (A : astate) (L : list (Z * open_orders)).
Hypothesis (WI : winv e s) (SN : seen e s k m A L) (P : usable m).
Let HM := sn_mkt _ _ _ _ _ _ SN.

(** What follows once all accounts are loaded. *)
Definition take_tail (ix : take_ix) (o : obs) (rq : Z * Z) (t : tier) (cw pw w p : Z) : res store :=
  '(o', rq', deposit, withdraw) <- send_take_core o rq t ix ;;
  let s1 := put_data (write_obs s k (m_bids m) (m_asks m) (m_event_q m) o') (m_req_q m) (DReqQ rq') in
  let '(src, dv, wv, dst) := match ti_side ix with
    | Bid => (pw, m_pc_vault m, m_coin_vault m, cw)
    | Ask => (cw, m_coin_vault m, m_pc_vault m, pw) end in
  s2 <- transfer_in s1 [k; m_req_q m; m_event_q m; m_bids m; m_asks m] src dv w deposit ;;
  if withdraw =? 0 then Ok s2 else send_from_vault s2 wv dst p withdraw.

Theorem tail_judged ix seq o t cw pw w p disc tcw tpw : mstate (D s) k m seq L A o -> take_ix_ok ix ->
  may_spend (ti_side ix) (ti_qty ix) (ti_pc ix) (m_coin_lot m) < B64 -> tier_for s k w disc t ->
  token_at s cw = Some tcw -> t_state tcw = 1 -> t_mint tcw = m_coin_mint m -> token_at s pw = Some tpw -> t_state tpw = 1 -> t_mint tpw = m_pc_mint m ->
  (forall v, In v [cw; pw] -> v <> m_coin_vault m /\ v <> m_pc_vault m) ->
  e_pda e (m_nonce m) k = Some p -> thawed s (m_coin_vault m) -> thawed s (m_pc_vault m) ->
  (exists s', take_tail ix o (0, seq) t cw pw w p = Ok s') \/ (exists er, take_tail ix o (0, seq) t cw pw w p = Err er /\ take_error e s k m A ix w cw pw disc er).
Proof.
  intros MS IX SPB TF C1 C2 C3 P1 P2 P3 NV PD (tc1 & TC & SC) (tp1 & TP & SP).
  pose proof (wi_str _ _ WI) as W.
  pose proof (ms_mkt _ _ _ _ _ _ _ MS) as EM. pose proof (ms_bids _ _ _ _ _ _ _ MS) as HB. pose proof (ms_asks _ _ _ _ _ _ _ MS) as HA. pose proof (ms_evq _ _ _ _ _ _ _ MS) as HE.
  pose proof (ms_req _ _ _ _ _ _ _ MS) as HR. pose proof (ms_inv _ _ _ _ _ _ _ MS) as C.
  pose proof (send_take_judged o seq L A t ix C IX) as J. cbv zeta in J. rewrite EM in J. specialize (J SPB).
  set (sd := ti_side ix) in *. set (kt := taking ix t seq) in *. unfold take_tail.
  destruct J as [(HC & X1 & X2)|(o' & tr & E & WT & CN & ON & HC)].
  { right. rewrite HC. exists EEventQueueFull. split; [reflexivity|]. exists seq, t. split; [exact HR|]. split; [exact TF|]. exists (ob_eq o). auto. }
  rewrite HC. clear HC. destruct (Z.leb_spec (minimum sd (ti_min_coin ix) (ti_min_pc ix)) (brings m kt tr)) as [MN|MN].
  2: { right. exists EMinAmountNotMet. split; [reflexivity|]. exists seq, t. split; [exact HR|]. split; [exact TF|]. exists tr, E. auto. }
  cbn [rbind]. cbv zeta. set (cost := costs m kt tr) in *. set (out := paid_out sd (brings m kt tr) (m_coin_lot m)) in *.
  assert (NB : m_bids m <> m_asks m) by (apply P).
  pose proof (write_obs_D e s k m _ _ _ _ HM NB HB HA HE HR o') as V1. pose proof (write_obs_quiet e EO s k m _ _ _ _ HM NB HB HA HE HR o') as Q1.
  set (s1 := write_obs s k (m_bids m) (m_asks m) (m_event_q m) o') in *. set (rq' := (0, wadd seq 1)) in *.
  assert (R1 : exists d, D s1 (m_req_q m) = Some d).
  { rewrite V1. unfold overlay. repeat match goal with |- context [if ?b then _ else _] => destruct b end; eauto. }
  destruct R1 as (d1 & R1). pose proof (quiet_put e EO _ _ (DReqQ rq') _ R1) as Q2. set (s2 := put_data s1 (m_req_q m) (DReqQ rq')) in *.
  pose proof (quiet_trans _ _ _ Q1 Q2) as Q.
  destruct (wi_vlt _ _ WI) as [VA VC VP]. destruct (VC k m HM) as (tc & [c1 c2 c3 c4 c5 c6]). destruct (VP k m HM) as (tq & [p1 p2 p3 p4 p5 p6]).
  assert (tc1 = tc) by congruence. assert (tp1 = tq) by congruence. subst tc1 tp1.
  destruct (vault_cover e s k m WI HM P) as (tc' & tp' & X1 & X2 & CV1 & CV2). assert (tc' = tc) by congruence. assert (tp' = tq) by congruence. subst tc' tp'.
  destruct (ci_mkt _ _ _ _ C) as (U1 & U2 & U3). rewrite EM in U1, U2, U3. unfold u64 in U1, U2, U3. unfold pc_owed in CV2.
  set (src := spends_from sd cw pw). set (dst := receives_in sd cw pw).
  set (ti := match sd with Bid => tq | Ask => tc end). set (to := match sd with Bid => tc | Ask => tq end).
  set (ts := match sd with Bid => tpw | Ask => tcw end). set (td := match sd with Bid => tcw | Ask => tpw end).
  assert (TI : token_at s (pays_into m sd) = Some ti /\ t_state ti = 1 /\ t_mint ti = pays_in m sd) by (unfold ti, pays_into, pays_in; destruct sd; auto).
  assert (TO : token_at s (pays_from m sd) = Some to /\ t_state to = 1 /\ t_mint to = pays_out m sd /\ t_owner to = p /\ locked_token to /\ held m sd <= t_amount to).
  { assert (O1 : t_owner tc = p) by congruence. assert (O2 : t_owner tq = p) by congruence.
    unfold to, pays_from, pays_out, held; destruct sd; (split; [assumption|]); (split; [assumption|]); (split; [assumption|]); (split; [assumption|]); (split; [assumption|lia]). }
  assert (TS : token_at s src = Some ts /\ t_state ts = 1 /\ t_mint ts = pays_in m sd) by (unfold ts, src, spends_from, pays_in; destruct sd; auto).
  assert (TD : token_at s dst = Some td /\ t_state td = 1 /\ t_mint td = pays_out m sd) by (unfold td, dst, receives_in, pays_out; destruct sd; auto).
  destruct TI as (TI1 & TI2 & TI3). destruct TO as (TO1 & TO2 & TO3 & TO4 & TO5 & TO6). destruct TS as (TS1 & TS2 & TS3). destruct TD as (TD1 & TD2 & TD3).
  assert (NS : src <> pays_into m sd /\ src <> pays_from m sd).
  { destruct (NV src) as [N1 N2]; [unfold src, spends_from; destruct sd; cbn [In]; auto|]. unfold pays_into, pays_from. destruct sd; auto. }
  assert (NDS : dst <> pays_into m sd /\ dst <> pays_from m sd).
  { destruct (NV dst) as [N1 N2]; [unfold dst, receives_in; destruct sd; cbn [In]; auto|]. unfold pays_into, pays_from. destruct sd; auto. }
  destruct NS as [NS1 NS2]. destruct NDS as [ND1 ND2].
  assert (FOLD : forall r, (s3 <- transfer_in s2 [k; m_req_q m; m_event_q m; m_bids m; m_asks m] src (pays_into m sd) w cost ;;
      (if out =? 0 then Ok s3 else send_from_vault s3 (pays_from m sd) dst p out)) = r ->
    (let '(src0, dv, wv, dst0) := match sd with Bid => (pw, m_pc_vault m, m_coin_vault m, cw) | Ask => (cw, m_coin_vault m, m_pc_vault m, pw) end in
     s3 <- transfer_in s2 [k; m_req_q m; m_event_q m; m_bids m; m_asks m] src0 dv w cost ;; (if out =? 0 then Ok s3 else send_from_vault s3 wv dst0 p out)) = r).
  { intros r <-. unfold src, dst, spends_from, receives_in, pays_into, pays_from. destruct sd; reflexivity. }
  assert (FAIL : forall er, match er with
      | EInsufficientFunds => t_amount ts < cost \/ (t_delegate ts = Some w /\ t_delegated ts < cost)
      | ETransferFailed => (0 < cost /\ ((t_owner ts <> w /\ t_delegate ts <> Some w) \/ In w [k; m_req_q m; m_event_q m; m_bids m; m_asks m] \/ B64 <= t_amount ti + cost)) \/ (0 < out /\ B64 <= t_amount td + out)
      | _ => False end -> take_error e s k m A ix w cw pw disc er).
  { intros er H. exists seq, t. split; [exact HR|]. split; [exact TF|]. destruct er; try contradiction.
    all: first [exists tr, E, ts, td, ti; repeat (split; [assumption|]); exact H|exists tr, E, ts; repeat (split; [assumption|]); exact H]. }
  destruct (transfer_in_judged s2 [k; m_req_q m; m_event_q m; m_bids m; m_asks m] src (pays_into m sd) w cost ts ti) as [(s3 & TR)|[[TR Y]|(TR & Y1 & Y2)]];
    try (rewrite (qu_tok _ _ Q)); try assumption; try congruence.
  2: { right. exists EInsufficientFunds. split; [apply FOLD; rewrite TR; reflexivity|apply FAIL; exact Y]. }
  2: { right. exists ETransferFailed. split; [apply FOLD; rewrite TR; reflexivity|apply FAIL; left; auto]. }
  destruct (Z.eqb_spec out 0) as [E0|N0]; [left; exists s3; apply FOLD; rewrite TR; reflexivity|].
  pose proof (transfer_in_ok e (eo_spl _ EO) _ _ _ _ _ _ _ TR) as TRO.
  assert (AFTER : moves s s3 [(src, pays_into m sd, cost)] /\ exists to3, token_at s3 (pays_from m sd) = Some to3 /\ t_state to3 = 1 /\ t_mint to3 = t_mint to /\ t_owner to3 = p /\ t_delegate to3 = None /\ t_amount to <= t_amount to3).
  { pose proof (moves_quiet _ _ (qu_tok _ _ Q)) as M0. assert (TO1' : token_at s2 (pays_from m sd) = Some to) by (rewrite (qu_tok _ _ Q); exact TO1).
    destruct TRO as [[E0 ->]|(NZ & TFR & _)].
    - split.
      + intros v. specialize (M0 v). destruct (token_at s v); [|exact M0]. destruct M0 as (t' & m1 & m2 & m3 & m4 & m5). exists t'. do 4 (split; [assumption|]). cbn [zsum got] in *. rewrite E0. destruct (v =? pays_into m sd), (v =? src); lia.
      + exists to. destruct TO5 as [? ?]. repeat (split; [auto; fail|]). lia.
    - pose proof (moves_transferred e _ _ _ _ _ _ TFR) as M1. split; [exact (moves_app _ _ _ _ _ M0 M1)|].
      destruct (transferred_tdelta e _ _ _ _ _ _ TFR _ _ TO1' TO5) as (to3 & Y1 & Y2 & Y3 & (Y4 & Y5) & _). exists to3.
      pose proof (M1 (pays_from m sd)) as MV. rewrite TO1' in MV. destruct MV as (to4 & Z1 & _ & _ & Z4 & Z5). assert (to4 = to3) by congruence. subst to4. cbn [zsum got] in Z5.
      split; [assumption|]. split; [congruence|]. split; [congruence|]. split; [congruence|]. split; [assumption|]. replace (pays_from m sd =? src) with false in Z5 by lia. destruct (pays_from m sd =? pays_into m sd); lia. }
  destruct AFTER as (MV & to3 & Y1 & Y2 & Y3 & Y4 & Y5 & Y6).
  pose proof (MV dst) as MD. rewrite TD1 in MD. destruct MD as (tw3 & D1 & D2 & D3 & D4 & D5). cbn [zsum got] in D5. replace (dst =? pays_into m sd) with false in D5 by lia.
  destruct (send_judged s3 (pays_from m sd) dst p out to3 tw3) as [(s4 & TS4)|[TS4 OV]]; try assumption; try congruence; try lia.
  - left. exists s4. apply FOLD. rewrite TR. cbn [rbind]. replace (out =? 0) with false by lia. exact TS4.
  - right. exists ETransferFailed. split; [apply FOLD; rewrite TR; cbn [rbind]; replace (out =? 0) with false by lia; exact TS4|]. apply FAIL. right. split; [lia|]. destruct (dst =? src); lia.
Qed.

(** With the right accounts. *)
Theorem take_judged c ix cw pw w p disc tcw tpw : ~ disabled m -> take_ix_ok ix ->
  may_spend (ti_side ix) (ti_qty ix) (ti_pc ix) (m_coin_lot m) < B64 ->
  token_at s cw = Some tcw -> a_len (sget s cw) = 165 -> t_state tcw = 1 -> t_mint tcw = m_coin_mint m ->
  token_at s pw = Some tpw -> a_len (sget s pw) = 165 -> t_state tpw = 1 -> t_mint tpw = m_pc_mint m ->
  (forall v, In v [cw; pw] -> v <> m_coin_vault m /\ v <> m_pc_vault m) -> discount_ok s w disc ->
  e_pda e (m_nonce m) k = Some p -> thawed s (m_coin_vault m) -> thawed s (m_pc_vault m) ->
  let r := process e c s (ISendTake ix)
    (mkMeta k false :: mkMeta (m_req_q m) false :: mkMeta (m_event_q m) false :: mkMeta (m_bids m) false :: mkMeta (m_asks m) false ::
     mkMeta cw false :: mkMeta pw false :: mkMeta w true :: map (fun y => mkMeta y false) ([m_coin_vault m; m_pc_vault m; spl_id; p] ++ disc)) in
  (exists s', r = Ok s') \/ (exists er, r = Err er /\ take_error e s k m A ix w cw pw (nth_error disc 0) er).
Proof.
  intros NDI IX SPB C1 C2 C3 C4 P1 P2 P3 P4 NV DO PD TC TP r.
  pose proof (wi_str _ _ WI) as W. destruct (seen_state e s k m A L WI SN P) as (seq & o & MS).
  pose proof (ms_mkt _ _ _ _ _ _ _ MS) as EM. pose proof (ms_bids _ _ _ _ _ _ _ MS) as HB. pose proof (ms_asks _ _ _ _ _ _ _ MS) as HA. pose proof (ms_evq _ _ _ _ _ _ _ MS) as HE.
  pose proof (ms_req _ _ _ _ _ _ _ MS) as HR.
  pose proof (enabled_flags e s k m A L WI SN NDI) as FE.
  destruct (load_discount_fwd s k w disc DO) as (da & t & HD & HT).
  assert (EO2 : o = mkObs (ob_bids o) (ob_asks o) m (ob_eq o)) by (rewrite <- EM; destruct o; reflexivity).
  destruct (wi_vlt _ _ WI) as [VA VC VP]. destruct (VC k m HM) as (tc & [c1 c2 c3 c4 c5 c6]). destruct (VP k m HM) as (tq & [p1 p2 p3 p4 p5 p6]).
  assert (SC : t_state tc = 1) by (destruct TC as (? & ? & ?); congruence). assert (SP : t_state tq = 1) by (destruct TP as (? & ? & ?); congruence).
  assert (RUN : r = take_tail ix o (0, seq) t cw pw w p).
  { unfold r. cbn [process map app]. unfold proc_send_take. cbn [mk mk_signer]. rewrite HD. cbn [rbind]. rewrite (load_market_fwd e s k m HM false FE). cbn [rbind]. unfold check_signer. cbn [mk_signer check rbind].
    rewrite (ws_own _ W _ _ HM), HT. cbn [rbind].
    assert (XR : load_req_q s m (m_req_q m) = Ok (0, seq)) by (unfold load_req_q; apply dexd_owned in HR; destruct HR as [_ ->]; rewrite Z.eqb_refl; reflexivity). rewrite XR. cbn [rbind].
    rewrite (load_evq_fwd e s m _ HE). cbn [rbind]. rewrite (coin_wallet_fwd s m cw tcw C1 C2 C3 C4), (pc_wallet_fwd s m pw tpw P1 P2 P3 P4). cbn [rbind].
    unfold load_coin_vault, load_pc_vault. rewrite (load_token_fwd _ _ _ c1 c2 SC), (load_token_fwd _ _ _ p1 p2 SP). cbn [rbind]. rewrite !Z.eqb_refl. cbn [check rbind].
    unfold check_spl. rewrite Z.eqb_refl. cbn [check rbind].
    assert (VS : check_vault_signer e m p = Ok tt) by (unfold check_vault_signer; rewrite (ws_own _ W _ _ HM), PD; cbn [ok_or rbind]; rewrite Z.eqb_refl; reflexivity).
    rewrite VS. cbn [rbind]. rewrite (load_slab_fwd e s Bid _ _ HB), (load_slab_fwd e s Ask _ _ HA). cbn [rbind]. rewrite <- EO2. reflexivity. }
  rewrite RUN. eapply tail_judged; try eassumption. exact (discount_tier s k w disc da t HD HT).
Qed.

(** Whatever the accounts. *)
Theorem take_refused c ix ms er : take_ix_ok ix -> may_spend (ti_side ix) (ti_qty ix) (ti_pc ix) (m_coin_lot m) < B64 -> key_at ms 0 = Some k ->
  (forall i v, i = 5%nat \/ i = 6%nat -> key_at ms i = Some v -> v <> m_coin_vault m /\ v <> m_pc_vault m) ->
  process e c s (ISendTake ix) ms = Err er ->
  about_accounts er \/ exists w cw pw, key_at ms 5 = Some cw /\ key_at ms 6 = Some pw /\ signs ms 7 w /\ take_error e s k m A ix w cw pw (key_at ms 12) er.
Proof.
  intros IX SPB K NV H. cbn [process] in H. pose proof (wi_str _ _ WI) as W. destruct (seen_state e s k m A L WI SN P) as (seq & o & MS).
  pose proof (ms_mkt _ _ _ _ _ _ _ MS) as EM. pose proof (ms_bids _ _ _ _ _ _ _ MS) as HB. pose proof (ms_asks _ _ _ _ _ _ _ MS) as HA. pose proof (ms_evq _ _ _ _ _ _ _ MS) as HE.
  pose proof (ms_req _ _ _ _ _ _ _ MS) as HR.
  unfold proc_send_take in H.
  destruct ms as [|mkt [|rqa [|eqa [|ba [|aa [|cw [|pw [|signer [|cv [|pv [|spl [|vs disc]]]]]]]]]]]]; try (left; injection H as <-; left; reflexivity).
  assert (NV1 : mk cw <> m_coin_vault m /\ mk cw <> m_pc_vault m) by (apply (NV 5%nat); [auto|reflexivity]).
  assert (NV2 : mk pw <> m_coin_vault m /\ mk pw <> m_pc_vault m) by (apply (NV 6%nat); [auto|reflexivity]).
  cbn [key_at nth_error option_map] in K. injection K as K. cbn [map] in H. rewrite K in H.
  apply rbind_err in H. destruct H as [H|(da & HDA & H)]; [left; exact (discount_errs _ _ _ H)|].
  apply rbind_err in H. destruct H as [H|(m0 & LM & H)]; [left; exact (market_errs _ _ _ _ _ H)|].
  apply load_market_ok in LM. destruct LM as [LM FE]. assert (m0 = m) by congruence. subst m0.
  apply rbind_err in H. destruct H as [H|(? & SG & H)]; [left; exact (signer_errs _ _ H)|]. apply check_ok in SG.
  apply rbind_err in H. destruct H as [H|(t & HTI & H)]; [left; exact (tier_errs _ _ _ _ H)|].
  apply rbind_err in H. destruct H as [H|(rq & LR & H)]; [left; exact (req_errs _ _ _ _ H)|].
  apply rbind_err in H. destruct H as [H|(q & LQ & H)]; [left; exact (evq_errs _ _ _ _ H)|].
  apply rbind_err in H. destruct H as [H|(tcw & LCW & H)]; [left; exact (coin_wallet_errs _ _ _ _ H)|].
  apply rbind_err in H. destruct H as [H|(tpw & LPW & H)]; [left; exact (pc_wallet_errs _ _ _ _ H)|].
  apply rbind_err in H. destruct H as [H|(tc & LC & H)]; [left; exact (coin_vault_errs _ _ _ _ H)|].
  apply rbind_err in H. destruct H as [H|(tv & LV & H)]; [left; exact (pc_vault_errs _ _ _ _ H)|].
  apply rbind_err in H. destruct H as [H|(_ & _ & H)]; [left; exact (spl_errs _ _ H)|].
  apply rbind_err in H. destruct H as [H|([] & VS & H)]; [left; exact (pda_errs _ _ _ _ H)|]. apply vault_signer_ok in VS. rewrite (ws_own _ W _ _ HM) in VS.
  apply rbind_err in H. destruct H as [H|(bids & LB & H)]; [left; exact (slab_errs _ _ _ _ _ H)|].
  apply rbind_err in H. destruct H as [H|(asks & LA & H)]; [left; exact (slab_errs _ _ _ _ _ H)|].
  unfold load_req_q in LR. apply rbind_ok in LR. destruct LR as (? & KR & LR). apply check_ok in KR. apply Z.eqb_eq in KR. rewrite KR in *.
  unfold load_event_q in LQ. apply rbind_ok in LQ. destruct LQ as (? & KQ & LQ). apply check_ok in KQ. apply Z.eqb_eq in KQ. rewrite KQ in *.
  unfold load_slab in LB. apply rbind_ok in LB. destruct LB as (? & KB & LB). apply check_ok in KB. apply Z.eqb_eq in KB. rewrite KB in *.
  unfold load_slab in LA. apply rbind_ok in LA. destruct LA as (? & KA & LA). apply check_ok in KA. apply Z.eqb_eq in KA. rewrite KA in *.
  pose proof (proj2 (dexd_owned _ _ _ _ HR)) as YR. pose proof (proj2 (dexd_owned _ _ _ _ HE)) as YE. pose proof (proj2 (dexd_owned _ _ _ _ HB)) as YB. pose proof (proj2 (dexd_owned _ _ _ _ HA)) as YA.
  rewrite YR in LR. injection LR as <-. rewrite YE in LQ. injection LQ as <-. rewrite YB in LB. cbn [side_eqb check rbind] in LB. injection LB as <-. rewrite YA in LA. cbn [side_eqb check rbind] in LA. injection LA as <-.
  unfold load_coin_vault in LC. apply rbind_ok in LC. destruct LC as (tc1 & LC & KC). apply rbind_ok in KC. destruct KC as (? & KC & E). apply check_ok in KC. apply Z.eqb_eq in KC. injection E as ->. rewrite KC in *.
  unfold load_pc_vault in LV. apply rbind_ok in LV. destruct LV as (tv1 & LV & KV). apply rbind_ok in KV. destruct KV as (? & KV & E). apply check_ok in KV. apply Z.eqb_eq in KV. injection E as ->. rewrite KV in *.
  unfold load_coin_wallet in LCW. apply rbind_ok in LCW. destruct LCW as (t1 & LCW & KCW). apply rbind_ok in KCW. destruct KCW as (? & KCW & E). apply check_ok in KCW. apply Z.eqb_eq in KCW. injection E as ->.
  unfold load_pc_wallet in LPW. apply rbind_ok in LPW. destruct LPW as (t2 & LPW & KPW). apply rbind_ok in KPW. destruct KPW as (? & KPW & E). apply check_ok in KPW. apply Z.eqb_eq in KPW. injection E as ->.
  apply load_token_ok in LC. destruct LC as (C1 & C2 & C3). apply load_token_ok in LV. destruct LV as (V1' & V2' & V3').
  apply load_token_ok in LCW. destruct LCW as (W1 & W2 & W3). apply load_token_ok in LPW. destruct LPW as (X1 & X2 & X3).
  assert (EO2 : o = mkObs (ob_bids o) (ob_asks o) m (ob_eq o)) by (rewrite <- EM; destruct o; reflexivity). rewrite <- EO2 in H.
  rewrite (ws_own _ W _ _ HM) in HTI.
  pose proof (load_discount_ok s (mkt :: rqa :: eqa :: ba :: aa :: cw :: pw :: signer :: cv :: pv :: spl :: vs :: disc) k (mk signer) da t HDA HTI) as TF.
  destruct (tail_judged ix seq o t (mk cw) (mk pw) (mk signer) (mk vs) _ tcw tpw MS IX SPB TF) as [(s' & R)|(er' & R & TE)]; try assumption.
  - intros v [<-|[<-|[]]]; assumption.
  - eexists. split; eassumption.
  - eexists. split; eassumption.
  - exfalso. unfold take_tail in R. congruence.
  - right. assert (er' = er) by (unfold take_tail in R; congruence). subst er'.
    exists (mk signer), (mk cw), (mk pw). split; [reflexivity|]. split; [reflexivity|]. split; [|exact TE].
    unfold signs. cbn [nth_error]. clear - SG. destruct signer as [w0 b0]. cbn [mk_signer mk] in *. rewrite SG. reflexivity.
Qed.
End Take.
