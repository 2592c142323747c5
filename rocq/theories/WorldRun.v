(** What a successful instruction has checked, loaded and written. *)
From Coq Require Import Permutation.
From Verif Require Import Base BaseProofs Fees ListSum Queue QueueProofs Codec CodecProofs Critbit CritbitSlab Market Matching
  MatchSteps MatchRefine MatchAsk MatchBid MatchRun MatchSpec Ledger LedgerSteps LedgerRun Slots Core CoreInv CoreNew CoreCancel CoreConsume CoreSettle CoreFrame Instr InstrProofs
  Store Process StoreProofs World WorldInv WorldLoad.

Ltac next H x E := apply rbind_ok in H; destruct H as (x & E & H).
Ltac nextc H E := apply rbind_ok in H; destruct H as (? & E & H); apply check_ok in E.

Section Run.
Variable e : env.
Hypothesis EO : env_ok e.
Notation D := (dexd e).

(** The four accounts and the market record every order instruction works on. *)
Record books (s : store) (k : Z) (m : market) (bids asks : slab) (q : queue event) : Prop := mkBooks {
  bk_mkt : D s k = Some (DMarket m); bk_diff : m_bids m <> m_asks m;
  bk_bids : D s (m_bids m) = Some (DSlab Bid bids); bk_asks : D s (m_asks m) = Some (DSlab Ask asks);
  bk_evq : D s (m_event_q m) = Some (DEventQ q) }.

Definition signed (ms : list meta) (i : nat) (w : Z) : Prop := exists a, nth_error ms i = Some a /\ mk a = w /\ mk_signer a = true.
Lemma signed_legal ms i w : legal e ms -> signed ms i w -> ~ is_pda e w.
Proof. intros L (a & N & <- & S). apply L; [eapply nth_error_In; eassumption|assumption]. Qed.

(** *** NewOrderV3 *)
Record ran_new_order (s : store) (c : clock) (ix : order_ix) (ms : list meta) (s' : store) (k x payer w : Z) (m : market) (bids asks : slab)
    (q : queue event) (rq : Z * Z) (t : tier) (oo : open_orders) (pt : token) (o' : obs) (rq' : Z * Z) (oo' : open_orders) (dep : Z) : Prop := mkRno {
  rn_keys : exists rest, map mk ms = k :: x :: m_req_q m :: m_event_q m :: m_bids m :: m_asks m :: payer :: w :: m_coin_vault m :: m_pc_vault m :: rest;
  rn_sign : signed ms 7 w;
  rn_flags : check_market_flags (m_flags m) false = Ok tt;
  rn_books : books s k m bids asks q; rn_req : D s (m_req_q m) = Some (DReqQ rq);
  rn_payer : token_at s payer = Some pt; rn_mint : t_mint pt = match oi_side ix with Bid => m_pc_mint m | Ask => m_coin_mint m end;
  rn_oo : live (D s) k x oo \/ opened e s m x (Some w) (Some c) None oo; rn_owner : oo_owner oo = w;
  rn_core : new_order_core (mkObs bids asks m q) rq oo x t ix (t_amount pt) (c_now c) = Ok (o', rq', oo', dep);
  rn_move : transfer_in (put_data (put_data (write_obs s k (m_bids m) (m_asks m) (m_event_q m) o') (m_req_q m) (DReqQ rq')) x (DOO oo')) [k; m_req_q m; m_event_q m; m_bids m; m_asks m]
              payer (match oi_side ix with Bid => m_pc_vault m | Ask => m_coin_vault m end) w dep = Ok s';
  rn_tier : exists da, load_discount s (skipn 12 ms) = Ok da /\ load_fee_tier k w da = Ok t }.
Lemma new_order_ran s c ix ms s' : wstruct (D s) -> proc_new_order e c s ix ms = Ok s' ->
  exists k x payer w m bids asks q rq t oo pt o' rq' oo' dep, ran_new_order s c ix ms s' k x payer w m bids asks q rq t oo pt o' rq' oo' dep.
Proof.
  intros W H. unfold proc_new_order in H.
  destruct ms as [|mkt [|oa [|rqa [|eqa [|ba [|aa [|payer [|owner [|cv [|pv [|spl [|rent disc]]]]]]]]]]]]; try discriminate.
  next H da HD. next H m HM. next H u HS. unfold check_signer in HS. apply check_ok in HS. next H t HT. next H rq HR. next H q HQ.
  next H pt HP. nextc H HMint. next H cvt HCV. next H pvt HPV. next H u2 HEn. next H u3 HSp. next H bids HB. next H asks HA. next H oo HO.
  next H r HC. destruct r as [[[o' rq'] oo'] dep].
  apply load_market_ok in HM. destruct HM as [HM HF].
  destruct (load_books_ok e s _ m W HM _ _ _ _ HB HA) as (NB & EB & EA & DB & DA).
  destruct (load_req_ok e s _ m W HM _ _ HR) as (ER & DR). destruct (load_evq_ok e s _ m W HM _ _ HQ) as (EQ & DQ).
  apply load_coin_vault_ok in HCV. apply load_pc_vault_ok in HPV. destruct HCV as [EC _], HPV as [EP _]. apply load_token_ok in HP. destruct HP as (HP & _ & _).
  destruct (load_orders_ok e s m _ _ _ _ _ _ W HM HO) as [LO OW].
  exists (mk mkt), (mk oa), (mk payer), (mk owner), m, bids, asks, q, rq, t, oo, pt, o', rq', oo', dep. cbv zeta in H.
  constructor; try assumption.
  - cbn [map]. rewrite EB, EA, ER, EQ, EC, EP. eauto.
  - exists owner. auto.
  - constructor; assumption.
  - destruct (oi_side ix); lia.
  - apply OW. reflexivity.
  - rewrite <- EB, <- EA, <- ER, <- EQ, <- EC, <- EP. exact H.
  - exists da. cbn [skipn]. split; [assumption|]. rewrite <- (ws_own _ W _ _ HM). assumption.
Qed.

(** *** SendTake *)
Record ran_send_take (s : store) (ix : take_ix) (ms : list meta) (s' : store) (k cw pw w p : Z) (m : market) (bids asks : slab)
    (q : queue event) (rq : Z * Z) (t : tier) (o' : obs) (rq' : Z * Z) (dep wd : Z) (s2 : store) : Prop := mkRst {
  rt_keys : exists rest, map mk ms = k :: m_req_q m :: m_event_q m :: m_bids m :: m_asks m :: cw :: pw :: w :: m_coin_vault m :: m_pc_vault m :: rest;
  rt_sign : signed ms 7 w;
  rt_flags : check_market_flags (m_flags m) false = Ok tt;
  rt_books : books s k m bids asks q; rt_req : D s (m_req_q m) = Some (DReqQ rq);
  rt_pda : e_pda e (m_nonce m) k = Some p;
  rt_core : send_take_core (mkObs bids asks m q) rq t ix = Ok (o', rq', dep, wd);
  rt_in : transfer_in (put_data (write_obs s k (m_bids m) (m_asks m) (m_event_q m) o') (m_req_q m) (DReqQ rq')) [k; m_req_q m; m_event_q m; m_bids m; m_asks m]
            (match ti_side ix with Bid => pw | Ask => cw end) (match ti_side ix with Bid => m_pc_vault m | Ask => m_coin_vault m end) w dep = Ok s2;
  rt_out : if wd =? 0 then s' = s2
           else send_from_vault s2 (match ti_side ix with Bid => m_coin_vault m | Ask => m_pc_vault m end) (match ti_side ix with Bid => cw | Ask => pw end) p wd = Ok s';
  rt_tier : exists da, load_discount s (skipn 12 ms) = Ok da /\ load_fee_tier k w da = Ok t }.
Lemma send_take_ran s ix ms s' : wstruct (D s) -> proc_send_take e s ix ms = Ok s' ->
  exists k cw pw w p m bids asks q rq t o' rq' dep wd s2, ran_send_take s ix ms s' k cw pw w p m bids asks q rq t o' rq' dep wd s2.
Proof.
  intros W H. unfold proc_send_take in H.
  destruct ms as [|mkt [|rqa [|eqa [|ba [|aa [|cw [|pw [|signer [|cv [|pv [|spl [|vs disc]]]]]]]]]]]]; try discriminate.
  next H da HD. next H m HM. next H u HS. unfold check_signer in HS. apply check_ok in HS. next H t HT. next H rq HR. next H q HQ.
  next H cwt HCW. next H pwt HPW. next H cvt HCV. next H pvt HPV. next H u3 HSp. next H u4 HVS. next H bids HB. next H asks HA.
  next H r HC. destruct r as [[[o' rq'] dep] wd]. cbv zeta in H.
  apply load_market_ok in HM. destruct HM as [HM HF].
  destruct (load_books_ok e s _ m W HM _ _ _ _ HB HA) as (NB & EB & EA & DB & DA).
  destruct (load_req_ok e s _ m W HM _ _ HR) as (ER & DR). destruct (load_evq_ok e s _ m W HM _ _ HQ) as (EQ & DQ).
  apply load_coin_vault_ok in HCV. apply load_pc_vault_ok in HPV. destruct HCV as [EC _], HPV as [EP _].
  destruct u4. apply vault_signer_ok in HVS. rewrite (ws_own _ W _ _ HM) in HVS.
  assert (K : exists rest, map mk (mkt :: rqa :: eqa :: ba :: aa :: cw :: pw :: signer :: cv :: pv :: spl :: vs :: disc) =
     mk mkt :: m_req_q m :: m_event_q m :: m_bids m :: m_asks m :: mk cw :: mk pw :: mk signer :: m_coin_vault m :: m_pc_vault m :: rest).
  { cbn [map]. rewrite EB, EA, ER, EQ, EC, EP. eauto. }
  cbn [map] in H. rewrite EB, EA, ER, EQ, EC, EP in H.
  destruct (match ti_side ix with Bid => (mk pw, m_pc_vault m, m_coin_vault m, mk cw) | Ask => (mk cw, m_coin_vault m, m_pc_vault m, mk pw) end) as [[[src dv] wv] dst] eqn:EV.
  next H s2 HT2. exists (mk mkt), (mk cw), (mk pw), (mk signer), (mk vs), m, bids, asks, q, rq, t, o', rq', dep, wd, s2.
  constructor; try assumption.
  - exists signer. auto.
  - constructor; assumption.
  - destruct (ti_side ix); injection EV; intros; subst; assumption.
  - destruct (wd =? 0); [injection H as <-; reflexivity|]. destruct (ti_side ix); injection EV; intros; subst; assumption.
  - exists da. cbn [skipn]. split; [assumption|]. rewrite <- (ws_own _ W _ _ HM). assumption.
Qed.

(** *** Cancels and Prune *)
Record ran_cancel (s : store) (core : obs -> Z -> open_orders -> res (obs * open_orders)) (s' : store) (k x w : Z) (m : market)
    (bids asks : slab) (q : queue event) (oo : open_orders) (o' : obs) (oo' : open_orders) : Prop := mkRca {
  rc_flags : check_market_flags (m_flags m) true = Ok tt;
  rc_books : books s k m bids asks q; rc_oo : live (D s) k x oo; rc_owner : oo_owner oo = w;
  rc_core : core (mkObs bids asks m q) x oo = Ok (o', oo');
  rc_store : s' = put_data (write_obs s k (m_bids m) (m_asks m) (m_event_q m) o') x (DOO oo') }.
Lemma cancel_ran s core ms s' : wstruct (D s) -> proc_cancel e s core ms = Ok s' ->
  exists k x w m bids asks q oo o' oo', ran_cancel s core s' k x w m bids asks q oo o' oo' /\ signed ms 4 w /\
    exists rest, map mk ms = k :: m_bids m :: m_asks m :: x :: w :: m_event_q m :: rest.
Proof.
  intros W H. unfold proc_cancel in H. destruct ms as [|mkt [|ba [|aa [|oa [|signer [|eqa rest]]]]]]; try discriminate.
  next H m HM. next H u HS. unfold check_signer in HS. apply check_ok in HS. next H oo HO. next H bids HB. next H asks HA. next H q HQ. next H r HC. destruct r as [o' oo']. injection H as <-.
  apply load_market_ok in HM. destruct HM as [HM HF].
  destruct (load_books_ok e s _ m W HM _ _ _ _ HB HA) as (NB & EB & EA & DB & DA). destruct (load_evq_ok e s _ m W HM _ _ HQ) as (EQ & DQ).
  destruct (load_orders_ok e s m _ _ _ _ _ _ W HM HO) as [[LO|(_ & _ & _ & ? & ? & _ & F & _)] OW]; [|discriminate].
  exists (mk mkt), (mk oa), (mk signer), m, bids, asks, q, oo, o', oo'. split; [|split].
  - constructor; try assumption; [constructor; assumption|apply OW; reflexivity|]. rewrite EB, EA, EQ. reflexivity.
  - exists signer. auto.
  - cbn [map]. rewrite EB, EA, EQ. eauto.
Qed.
Lemma prune_ran s limit ms s' : wstruct (D s) -> proc_prune e s limit ms = Ok s' ->
  exists k x w auth m bids asks q oo o' oo', ran_cancel s (fun o k oo => prune_core o oo k limit) s' k x w m bids asks q oo o' oo' /\
    signed ms 3 auth /\ prune_authority m = Some auth /\ check_market_flags (m_flags m) false = Ok tt /\
    map mk ms = [k; m_bids m; m_asks m; auth; x; w; m_event_q m].
Proof.
  intros W H. unfold proc_prune in H. destruct ms as [|mkt [|ba [|aa [|auth [|oa [|owner [|eqa [|? ?]]]]]]]]; try discriminate.
  next H u HS. unfold check_signer in HS. apply check_ok in HS. next H m HM. nextc H HPA. apply opt_eqb_eq in HPA. next H oo HO. next H bids HB. next H asks HA. next H q HQ. next H r HC. destruct r as [o' oo']. injection H as <-.
  apply load_market_ok in HM. destruct HM as [HM HF].
  destruct (load_books_ok e s _ m W HM _ _ _ _ HB HA) as (NB & EB & EA & DB & DA). destruct (load_evq_ok e s _ m W HM _ _ HQ) as (EQ & DQ).
  destruct (load_orders_ok e s m _ _ _ _ _ _ W HM HO) as [[LO|(_ & _ & _ & ? & ? & _ & F & _)] OW]; [|discriminate].
  exists (mk mkt), (mk oa), (mk owner), (mk auth), m, bids, asks, q, oo, o', oo'. split; [|split; [|split; [|split]]].
  - constructor; try assumption; [exact (ws_flags _ W _ _ HM)|constructor; assumption|apply OW; reflexivity|]. rewrite EB, EA, EQ. reflexivity.
  - exists auth. auto.
  - assumption.
  - assumption.
  - cbn [map]. rewrite EB, EA, EQ. reflexivity.
Qed.

(** *** SettleFunds *)
Record ran_settle (s : store) (ms : list meta) (s' : store) (k x w cw pw p : Z) (ref : option Z) (m : market) (oo : open_orders)
    (m' : market) (oo' : open_orders) (ca pa : Z) (rb : option Z) (s2 s3 : store) : Prop := mkRse {
  rs_keys : exists spl, map mk ms = [k; x; w; m_coin_vault m; m_pc_vault m; cw; pw; p; spl] ++ match ref with Some r => [r] | None => [] end;
  rs_sign : signed ms 2 w;
  rs_mkt : D s k = Some (DMarket m); rs_pda : e_pda e (m_nonce m) k = Some p;
  rs_oo : live (D s) k x oo; rs_owner : oo_owner oo = w;
  rs_core : settle_core m oo (match ref with Some _ => true | None => false end) = Ok (m', oo', ca, pa, rb);
  rs_coin : send_from_vault (put_data (put_data s k (DMarket m')) x (DOO oo')) (m_coin_vault m) cw p ca = Ok s2;
  rs_pc : send_from_vault s2 (m_pc_vault m) pw p pa = Ok s3;
  rs_ref : match ref, rb with Some r, Some y => send_from_vault s3 (m_pc_vault m) r p y = Ok s' | _, _ => s' = s3 end }.
Lemma settle_ran s ms s' : wstruct (D s) -> proc_settle e s ms = Ok s' ->
  exists k x w cw pw p ref m oo m' oo' ca pa rb s2 s3, ran_settle s ms s' k x w cw pw p ref m oo m' oo' ca pa rb s2 s3.
Proof.
  intros W H. unfold proc_settle in H. destruct ms as [|mkt [|oa [|owner [|cv [|pv [|cw [|pw [|vs [|spl refs]]]]]]]]]; try discriminate.
  next H u0 HSp. next H m HM. next H u HS. unfold check_signer in HS. apply check_ok in HS. next H cvt HCV. next H pvt HPV. next H cwt HCW. next H pwt HPW.
  next H ref HRF. next H u4 HVS. next H oo HO. next H r HC. destruct r as [[[[m' oo'] ca] pa] rb]. cbv zeta in H. next H s2 HT2. next H s3 HT3.
  apply load_market_ok in HM. destruct HM as [HM HF]. apply load_coin_vault_ok in HCV. apply load_pc_vault_ok in HPV. destruct HCV as [EC _], HPV as [EP _].
  destruct u4. apply vault_signer_ok in HVS. rewrite (ws_own _ W _ _ HM) in HVS.
  destruct (load_orders_ok e s m _ _ _ _ _ _ W HM HO) as [[LO|(_ & _ & _ & ? & ? & _ & F & _)] OW]; [|discriminate].
  exists (mk mkt), (mk oa), (mk owner), (mk cw), (mk pw), (mk vs), ref, m, oo, m', oo', ca, pa, rb, s2, s3. rewrite EC in HT2. rewrite EP in HT3, H.
  constructor; try assumption.
  - exists (mk spl). cbn [map app]. rewrite EC, EP. destruct refs as [|r1 [|? ?]]; [injection HRF as <-; reflexivity| |discriminate].
    next HRF rt HRT. injection HRF as <-. reflexivity.
  - exists owner. auto.
  - apply OW. reflexivity.
  - destruct ref, rb; try assumption; injection H as <-; reflexivity.
Qed.

(** *** DisableMarket, SweepFees, CloseOpenOrders, InitOpenOrders *)
Lemma disable_ran s ms s' : wstruct (D s) -> proc_disable e s ms = Ok s' ->
  exists k m, map mk ms = [k; disable_authority] /\ signed ms 1 disable_authority /\ D s k = Some (DMarket m) /\
    check_market_flags (m_flags m) false = Ok tt /\ s' = put_data s k (DMarket (set_flags m (Z.lor (m_flags m) AF_Disabled))).
Proof.
  intros W H. unfold proc_disable in H. destruct ms as [|mkt [|sg [|? ?]]]; try discriminate. next H m HM. next H u HS. unfold check_signer in HS. apply check_ok in HS.
  nextc H HA. injection H as <-. apply load_market_ok in HM. destruct HM as [HM HF]. assert (mk sg = disable_authority) as EA by lia.
  exists (mk mkt), m. split; [cbn [map]; rewrite EA; reflexivity|]. split; [exists sg; auto|auto].
Qed.
Lemma sweep_ran s ms s' : wstruct (D s) -> proc_sweep e s ms = Ok s' ->
  exists k m pw p spl, map mk ms = [k; m_pc_vault m; fee_sweeper; pw; p; spl] /\ signed ms 2 fee_sweeper /\ D s k = Some (DMarket m) /\
    check_market_flags (m_flags m) false = Ok tt /\ e_pda e (m_nonce m) k = Some p /\
    send_from_vault (put_data s k (DMarket (set_pc_fees m 0))) (m_pc_vault m) pw p (m_pc_fees m) = Ok s'.
Proof.
  intros W H. unfold proc_sweep in H. destruct ms as [|mkt [|pv [|au [|pw [|vs [|spl [|? ?]]]]]]]; try discriminate. next H m HM. next H pvt HPV. next H pwt HPW. next H u HVS. next H u1 HSp.
  next H u2 HS. unfold check_signer in HS. apply check_ok in HS. nextc H HA. apply load_market_ok in HM. destruct HM as [HM HF].
  apply load_pc_vault_ok in HPV. destruct HPV as [EP _]. destruct u. apply vault_signer_ok in HVS. rewrite (ws_own _ W _ _ HM) in HVS. assert (mk au = fee_sweeper) as EA by lia.
  exists (mk mkt), m, (mk pw), (mk vs), (mk spl). split; [cbn [map]; rewrite EA, EP; reflexivity|]. split; [exists au; auto|]. split; [assumption|]. split; [assumption|]. split; [assumption|].
  rewrite EP in H. exact H.
Qed.
Lemma close_ran s ms s' : wstruct (D s) -> proc_close e s ms = Ok s' ->
  exists k x w dest m oo oo' sum, map mk ms = [x; w; dest; k] /\ signed ms 1 w /\ D s k = Some (DMarket m) /\ live (D s) k x oo /\ oo_owner oo = w /\
    close_core oo = Ok oo' /\ (dest <> x \/ a_lamports (sget s x) = 0) /\
    cadd (a_lamports (sget s dest)) (a_lamports (sget s x)) = Ok sum /\
    s' = put_data (put_lamports (put_lamports s dest sum) x 0) x (DOO oo').
Proof.
  intros W H. unfold proc_close in H. destruct ms as [|oa [|ow [|dest [|mkt [|? ?]]]]]; try discriminate. next H u HS. unfold check_signer in HS. apply check_ok in HS.
  next H m HM. next H oo HO. next H oo' HC. cbv zeta in H. nextc H HL. next H sm0 HSum. injection H as <-. apply load_market_ok in HM. destruct HM as [HM HF].
  destruct (load_orders_ok e s m _ _ _ _ _ _ W HM HO) as [[LO|(_ & _ & _ & ? & ? & _ & F & _)] OW]; [|discriminate].
  exists (mk mkt), (mk oa), (mk ow), (mk dest), m, oo, oo', sm0. split; [reflexivity|]. split; [exists ow; auto|]. split; [assumption|]. split; [assumption|].
  split; [apply OW; reflexivity|]. split; [assumption|]. split; [lia|]. auto.
Qed.
Lemma init_oo_ran s c ms s' : wstruct (D s) -> proc_init_oo e c s ms = Ok s' ->
  exists k x w m auth oo rest, map mk ms = x :: w :: k :: rest /\ signed ms 1 w /\ (forall a, auth = Some a -> signed ms 4 a) /\
    D s k = Some (DMarket m) /\ check_market_flags (m_flags m) false = Ok tt /\
    (live (D s) k x oo \/ opened e s m x (Some w) (Some c) auth oo) /\ oo_owner oo = w /\ s' = put_data s x (DOO oo).
Proof.
  intros W H. unfold proc_init_oo in H. destruct ms as [|oa [|ow [|mkt [|rent rest]]]]; try discriminate. next H auth HAu. next H u HS. unfold check_signer in HS. apply check_ok in HS.
  next H m HM. next H oo HO. injection H as <-. apply load_market_ok in HM. destruct HM as [HM HF].
  destruct (load_orders_ok e s m _ _ _ _ _ _ W HM HO) as [LO OW].
  exists (mk mkt), (mk oa), (mk ow), m, auth, oo. eexists. split; [reflexivity|]. split; [exists ow; auto|]. split.
  { intros a ->. destruct rest as [|a1 [|? ?]]; [discriminate| |discriminate]. next HAu u5 HSA. unfold check_signer in HSA. apply check_ok in HSA. injection HAu as <-. exists a1. auto. }
  split; [assumption|]. split; [assumption|]. split; [assumption|]. split; [apply OW; reflexivity|reflexivity].
Qed.
End Run.
