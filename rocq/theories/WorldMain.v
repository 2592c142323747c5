(** Every instruction keeps the world invariant, so every reachable state has it. *)
From Coq Require Import Permutation.
From Verif Require Import Base BaseProofs Fees ListSum Queue QueueProofs Codec CodecProofs Critbit CritbitSlab CritbitProofs Market Matching MatchSteps MatchRefine MatchAsk MatchBid MatchRun MatchSpec Ledger LedgerSteps LedgerRun MatchReport MatchOrder MatchFacts Slots Core CoreInv CoreNew CoreCancel CoreConsume CoreSettle CoreFrame Instr InstrProofs Store Process StoreProofs World WorldInv WorldLoad WorldRun WorldStep WorldStep2 WorldConsume WorldInit.

(** ** What the cancel cores promise, in one shape *)
Section Cores.
Variables (bids asks : slab) (m : market) (q : queue event) (x : Z) (oo : open_orders) (o' : obs) (oo' : open_orders).
Notation o := (mkObs bids asks m q).
Notation keeps := (forall seq L A, cinv o seq ((x, oo) :: L) A -> exists A', cinv o' seq ((x, oo') :: L) A').
Lemma keeps_v2 sd id : cancel_order_v2 o sd x oo id = Ok (o', oo') -> keeps.
Proof.
  intros H seq L A C. pose proof (cancel_v2_spec _ _ _ _ _ _ sd id C) as S. rewrite H in S.
  destruct (lfind id (book_of A sd)) as [l|]; [|discriminate]. destruct (l_owner l =? x); [|discriminate].
  destruct S as [[S _]|(o1 & S & C1 & _)]; [discriminate|]. injection S as <- ->. eauto.
Qed.
Lemma keeps_cid cid : cid <> 0 -> cancel_by_cid_core o x oo cid = Ok (o', oo') -> keeps.
Proof.
  intros NZ H seq L A C. pose proof (cancel_by_cid_spec _ _ _ _ _ _ cid C NZ) as S. rewrite H in S.
  destruct (find _ (tagged oo)) as [i|]; [|discriminate]. destruct S as [S _]. symmetry in S. exact (keeps_v2 _ _ S _ _ _ C).
Qed.
Lemma keeps_cids cids : ~ In 0 cids -> cancel_by_cids_core o x oo cids = Ok (o', oo') -> keeps.
Proof.
  intros NZ H seq L A C. destruct (cancel_by_cids_spec _ _ _ _ _ _ cids C NZ) as [S _]. rewrite H in S.
  destruct S as [S|(o1 & S & C1 & _)]; [discriminate|]. injection S as <- ->. eauto.
Qed.
Lemma keeps_prune n : 0 <= n -> prune_core o oo x n = Ok (o', oo') -> keeps.
Proof.
  intros HN H seq L A C. destruct (prune_spec _ _ _ _ _ _ n C HN) as (bl & al & _ & _ & _ & _ & _ & _ & S). cbv zeta in S. rewrite H in S.
  destruct S as [[S _]|(o1 & S & C1 & _)]; [discriminate|]. injection S as <- ->. eauto.
Qed.
End Cores.

Section Main.
Variable e : env.
Hypothesis EO : env_ok e.
Notation D := (dexd e).

Lemma wf_order ix : wf_v3 ix -> order_ix_ok ix.
Proof. unfold wf_v3, nz64, u64, u16, I64_MAX. intros (? & ? & ? & ? & ? & ?). constructor; unfold u64; lia. Qed.
Lemma wf_take_ok ix : wf_take ix -> take_ix_ok ix.
Proof. unfold wf_take, nz64, u64, u16. intros (? & ? & ? & ? & ? & ?). constructor; unfold u64; lia. Qed.

Lemma cancel_one s core ms s' : winv e s -> proc_cancel e s core ms = Ok s' ->
  (forall o x oo o' oo', core o x oo = Ok (o', oo') -> ob_mkt o' = ob_mkt o /\ same_id oo oo') ->
  (forall bids asks m q x oo o' oo', core (mkObs bids asks m q) x oo = Ok (o', oo') ->
     forall seq L A, cinv (mkObs bids asks m q) seq ((x, oo) :: L) A -> exists A', cinv o' seq ((x, oo') :: L) A') ->
  winv e s' /\ forall n, room e s n -> room e s' n.
Proof.
  intros WI H FR CI. destruct (cancel_ran e _ _ _ _ (wi_str _ _ WI) H) as (k & x & w & m & bids & asks & q & oo & o' & oo' & R & _).
  pose proof (rc_core _ _ _ _ _ _ _ _ _ _ _ _ _ _ R) as HC. pose proof (FR _ _ _ _ _ HC) as F. cbn [ob_mkt] in F. split.
  - eapply step_cancel; eauto.
  - intros n. eapply ca_room; eauto.
Qed.
Lemma cids_one s cids ms s' : winv e s -> proc_cancel_cids e s cids ms = Ok s' -> winv e s' /\ forall n, room e s n -> room e s' n.
Proof.
  intros WI H. eapply cancel_one; [exact WI|exact H| |].
  - cbv beta. intros. eapply cancel_cids_frame; eassumption.
  - cbv beta. intros. eapply keeps_cids; [|eassumption|eassumption]. intros X. apply filter_In in X. destruct X as [_ X]. discriminate.
Qed.
Lemma order_one s c ix ms s' n : winv e s -> legal e ms -> order_ix_ok ix -> room e s (n + 1) -> 0 <= n -> proc_new_order e c s ix ms = Ok s' ->
  winv e s' /\ room e s' n.
Proof.
  intros WI LG IX RO HN H. destruct (new_order_ran e _ _ _ _ _ (wi_str _ _ WI) H) as (k & x & payer & w & m & bids & asks & q & rq & t & oo & pt & o' & rq' & oo' & dep & R).
  assert (RM : proper m -> snd rq + 1 < B64).
  { intros P. pose proof (rn_books _ _ _ _ _ _ _ _ _ _ _ _ _ _ _ _ _ _ _ _ _ _ R) as [HM _ _ _ _]. pose proof (rn_req _ _ _ _ _ _ _ _ _ _ _ _ _ _ _ _ _ _ _ _ _ _ R) as HR.
    destruct rq as [cq sq]. pose proof (RO _ _ _ _ HM P HR). cbn [snd]. lia. }
  split; [eapply step_new_order; eauto using wf_order|eapply no_room; eauto using wf_order].
Qed.
Lemma orders_all c ms ixs : legal e ms -> Forall wf_v3 ixs -> forall s s', winv e s -> room e s (zlen ixs) -> proc_new_orders e c s ixs ms = Ok s' -> winv e s'.
Proof.
  intros LG F. induction F as [|ix r IX F IH]; intros s s' WI RO H; cbn [proc_new_orders] in H; [injection H as <-; exact WI|].
  apply rbind_ok in H. destruct H as (s1 & H1 & H2). destruct (order_one s c ix ms s1 (zlen r) WI LG (wf_order _ IX)) as [W1 R1]; [|apply zlen_nonneg|exact H1|].
  - rewrite zlen_cons, Z.add_comm in RO. exact RO.
  - eauto.
Qed.
Lemma replace_all c s ixs ms s' : winv e s -> legal e ms -> Forall wf_v3 ixs -> room e s (zlen ixs) -> proc_replace e c s ixs ms = Ok s' -> winv e s'.
Proof.
  intros WI LG F RO H. unfold proc_replace in H. apply rbind_ok in H. destruct H as (cms & _ & H). apply rbind_ok in H. destruct H as (s1 & HC & H).
  destruct (cids_one _ _ _ _ WI HC) as [W1 R1]. eapply orders_all; eauto.
Qed.

Lemma guard_room s n : no_overflow e s -> n <= 16 -> room e s n.
Proof. intros G L k m cq seq HM PR HR. destruct (G k m HM PR) as [_ G2]. pose proof (G2 _ _ HR). lia. Qed.
Lemma guard_fits s k m q : no_overflow e s -> D s k = Some (DMarket m) -> usable m -> D s (m_event_q m) = Some (DEventQ q) -> qfits m q.
Proof. intros G HM PR HQ. exact (proj1 (G k m HM PR) q HQ). Qed.
Lemma consume_with_inv s k m qa oos limit s' : winv e s -> no_overflow e s -> D s k = Some (DMarket m) -> consume_with e s m qa oos limit = Ok s' -> winv e s'.
Proof.
  intros WI G HM H. destruct (ws_evq _ (wi_str _ _ WI) _ _ HM) as (q & HQ). eapply (step_consume e EO k m s q); eauto. intros PR. eapply guard_fits; eauto.
Qed.

Theorem process_inv c s i ms s' : winv e s -> no_overflow e s -> sized s -> legal e ms -> wf_instr i -> process e c s i ms = Ok s' -> winv e s'.
Proof.
  intros WI G SZ LG WF H. pose proof (wi_str _ _ WI) as W. destruct i; cbn [process wf_instr] in *; try discriminate.
  - destruct (init_ran e _ _ _ _ _ H) as (k & rqa & eqa & ba & aa & cv & pv & cm & pm & p & auths & R). eapply step_init; eauto. specialize (SZ eqa). unfold I64_MAX in SZ. lia.
  - injection H as <-. exact WI.
  - unfold proc_consume in H. destruct (rev ms) as [|z1 [|z2 [|eqa [|mkt [|z3 z4]]]]]; try discriminate. apply rbind_ok in H. destruct H as (m & HM & H). apply rbind_ok in H. destruct H as (? & _ & H).
    apply load_market_ok in HM. destruct HM as [HM _]. eapply consume_with_inv; eauto.
  - destruct (settle_ran e _ _ _ W H) as (k & x & w & cw & pw & p & ref & m & oo & m' & oo' & ca & pa & rb & s2 & s3 & R). eapply step_settle; eauto.
  - destruct (disable_ran e _ _ _ W H) as (k & m & _ & _ & HM & FL & ->). eapply step_disable; eauto.
  - destruct (sweep_ran e _ _ _ W H) as (k & m & pw & p & spl & _ & _ & HM & FL & HP & HS). eapply step_sweep; eauto.
  - eapply order_one with (n := 0); eauto using wf_order; [apply guard_room; [assumption|lia]|lia].
  - eapply cancel_one; [exact WI|exact H| |]; cbv beta; intros; [eapply cancel_v2_frame; eauto|eapply keeps_v2; eauto].
  - unfold proc_cancel_cid in H. apply rbind_ok in H. destruct H as (? & HC & H). apply check_ok in HC.
    eapply cancel_one; [exact WI|exact H| |]; cbv beta; intros; [eapply cancel_cid_frame; eauto|eapply keeps_cid; [|eassumption|eassumption]; lia].
  - destruct (send_take_ran e _ _ _ _ W H) as (k & cw & pw & w & p & m & bids & asks & q & rq & t & o' & rq' & dep & wd & s2 & R). eapply step_send_take; eauto using wf_take_ok.
    intros P. pose proof (rt_books _ _ _ _ _ _ _ _ _ _ _ _ _ _ _ _ _ _ _ _ _ R) as [HM _ _ _ _]. pose proof (rt_req _ _ _ _ _ _ _ _ _ _ _ _ _ _ _ _ _ _ _ _ _ R) as HR.
    destruct rq as [cq sq]. pose proof (guard_room s 1 G ltac:(lia) _ _ _ _ HM P HR). cbn [snd]. lia.
  - destruct (close_ran e _ _ _ W H) as (k & x & w & dest & m & oo & oo' & sm & _ & _ & HM & LV & _ & HC & _ & _ & E). eapply step_close; eauto.
  - destruct (init_oo_ran e _ _ _ _ W H) as (k & x & w & m & auth & oo & rest & _ & _ & _ & HM & FL & LV & _ & ->). eapply step_init_oo; eauto.
  - destruct (prune_ran e _ _ _ _ W H) as (k & x & w & auth & m & bids & asks & q & oo & o' & oo' & R & _). pose proof (rc_core _ _ _ _ _ _ _ _ _ _ _ _ _ _ R) as HC. cbv beta in HC.
    eapply step_cancel; eauto; [apply prune_frame in HC; exact HC|]. eapply keeps_prune; eauto. unfold u16 in WF. lia.
  - unfold proc_consume_perm in H. destruct (rev ms) as [|z1 [|eqa [|mkt [|z3 z4]]]]; try discriminate. apply rbind_ok in H. destruct H as (m & HM & H). apply rbind_ok in H. destruct H as (? & _ & H).
    apply rbind_ok in H. destruct H as (? & _ & H). apply load_market_ok in HM. destruct HM as [HM _]. eapply consume_with_inv; eauto.
  - exact (proj1 (cids_one _ _ _ _ WI H)).
  - apply (replace_all c s [ix] ms s' WI LG); [constructor; [exact WF|constructor]|apply guard_room; [assumption|cbn; lia]|exact H].
  - destruct WF as [LN F]. eapply replace_all; eauto. apply guard_room; [assumption|]. unfold zlen. lia.
Qed.
Theorem reachable_inv s : reachable e (no_overflow e) s -> winv e s.
Proof.
  induction 1 as [s G|s c b ms H IH G SZ HB LG|s s' H IH R].
  - apply winv_genesis; assumption.
  - unfold transact. destruct (process_bytes e c s b ms) as [s'|?|] eqn:E; [|exact IH|exact IH]. unfold process_bytes in E. apply rbind_ok in E. destruct E as (i & U & E).
    destruct (unpack b) as [i0|] eqn:UB; cbn [ok_or] in U; [|discriminate]. injection U as ->. destruct (unpack_pack _ _ HB UB) as [WF _]. eapply process_inv; eauto.
  - eapply winv_rely; eauto.
Qed.
End Main.
