(** Event consumption: what it does to a market, that it cannot fail, and that it can be split. *)
From Coq Require Import Permutation Sorted.
From Verif Require Import Base BaseProofs Fees ListSum Queue QueueProofs Codec CodecProofs Critbit CritbitProofs CritbitSlab Market Matching MatchSteps MatchRefine MatchAsk MatchBid MatchRun MatchSpec Ledger LedgerSteps LedgerRun MatchReport MatchOrder MatchFacts Slots Core CoreInv CoreNew CoreCancel CoreConsume CoreSettle CoreFrame Instr InstrProofs Store Process StoreProofs World WorldInv WorldLoad WorldRun WorldStep WorldStep2 WorldConsume WorldInit WorldMain WorldSpec WorldFacts WorldFwd.

Lemma sorted_increasing ks : StronglySorted Z.lt ks -> increasing ks.
Proof.
  unfold increasing, znth. induction 1 as [|a r S IH F]; intros i j x y Hi Hj LT.
  - destruct (i <? 0); [discriminate|]. destruct (Z.to_nat i); discriminate.
  - destruct (Z.ltb_spec i 0); [discriminate|]. destruct (Z.ltb_spec j 0); [discriminate|].
    destruct (Z.to_nat j) as [|j'] eqn:EJ; [lia|]. cbn [nth_error] in Hj. destruct (Z.to_nat i) as [|i'] eqn:EI; cbn [nth_error] in Hi.
    + injection Hi as ->. rewrite Forall_forall in F. apply F. eapply nth_error_In. exact Hj.
    + apply (IH (Z.of_nat i') (Z.of_nat j')); [| |lia]; (destruct (Z.ltb_spec (Z.of_nat i') 0); destruct (Z.ltb_spec (Z.of_nat j') 0); try lia; rewrite Nat2Z.id; assumption).
Qed.
Lemma search_in oos x : StronglySorted Z.lt oos -> binary_search oos x = existsb (Z.eqb x) oos.
Proof.
  intros S. apply sorted_increasing in S. destruct (existsb (Z.eqb x) oos) eqn:E.
  - apply existsb_exists in E. destruct E as (y & I & EQ). apply Z.eqb_eq in EQ. subst y. apply binary_search_complete; assumption.
  - destruct (binary_search oos x) eqn:B; [|reflexivity]. apply binary_search_sound in B. assert (existsb (Z.eqb x) oos = true) by (apply existsb_exists; exists x; split; [assumption|apply Z.eqb_refl]). congruence.
Qed.
Lemma new_inj a b : event_new a = event_new b -> a = b.
Proof. intros E. pose proof (event_roundtrip a) as X. rewrite E, event_roundtrip in X. congruence. Qed.
Lemma map_new_inj a : forall b, map event_new a = map event_new b -> a = b.
Proof. induction a as [|x r IH]; intros [|y t]; cbn [map]; try discriminate; [reflexivity|]. intros E. injection E as E1 E2. f_equal; [apply new_inj; assumption|auto]. Qed.
Lemma served_is oos : StronglySorted Z.lt oos -> forall n vs rest, (length vs <= n)%nat -> (forall v, In v vs -> binary_search oos (ev_owner v) = true) ->
  (length vs = n \/ rest = [] \/ exists v r, rest = v :: r /\ binary_search oos (ev_owner v) = false) -> served n oos (vs ++ rest) = vs.
Proof.
  intros S. induction n as [|n IH]; intros vs rest LE B ST.
  - destruct vs; [reflexivity|cbn in LE; lia].
  - destruct vs as [|v r]; cbn [app].
    + destruct ST as [ST|[->|(v & r & -> & ST)]]; [discriminate|reflexivity|]. cbn [served]. rewrite search_in in ST by assumption. rewrite ST. reflexivity.
    + cbn [served]. rewrite <- search_in by assumption. rewrite (B v (or_introl eq_refl)). f_equal. apply IH; [cbn in LE; lia|intros; apply B; right; assumption|].
      destruct ST as [ST|ST]; [left; cbn in ST; lia|right; exact ST].
Qed.
Lemma served_all oos evs : (forall v, In v evs -> In (ev_owner v) oos) -> forall n, (length evs <= n)%nat -> served n oos evs = evs.
Proof.
  induction evs as [|v r IH]; intros H n LE; [destruct n; reflexivity|]. destruct n as [|n]; [cbn in LE; lia|]. cbn [served].
  assert (E : existsb (Z.eqb (ev_owner v)) oos = true) by (apply existsb_exists; exists (ev_owner v); split; [apply H; left; reflexivity|apply Z.eqb_refl]).
  rewrite E. f_equal. apply IH; [intros; apply H; right; assumption|cbn in LE; lia].
Qed.
Lemma applied_booked oo oo' v : applied oo oo' v -> event_booked v oo oo'.
Proof.
  intros [a1 a2 a3 a4 a5 a6 a7 a8]. constructor; [|exact a6|exact a8].
  unfold changed_by. destruct v as [[] [] ? ? ? ? ? ? ? ?|[] [] ? ? ? ? ? ?]; cbn [ev_free_coin ev_coin ev_free_pc ev_pc ev_rebate] in *; lia.
Qed.

(** ** Splitting a consume *)
Lemma loop_split e m oos a : forall b s q, consume_loop e s m q oos (a + b) = ('(s1, q1) <- consume_loop e s m q oos a ;; consume_loop e s1 m q1 oos b).
Proof.
  induction a as [|a IH]; intros b s q; [reflexivity|]. cbn [Nat.add consume_loop]. destruct (peek_front q) as [oev| |] eqn:PK; cbn [rbind]; try reflexivity.
  destruct oev as [ev|]; [|cbn [rbind]; destruct b; cbn [consume_loop]; [reflexivity|rewrite PK; reflexivity]].
  destruct (event_as_view ev) as [v| |] eqn:VW; cbn [rbind]; try reflexivity. destruct (binary_search oos (e_owner ev)) eqn:BS.
  - destruct (load_orders e s m (e_owner ev) None None None) as [oo| |]; cbn [rbind]; try reflexivity. destruct (consume_event oo v) as [oo'| |]; cbn [rbind]; try reflexivity.
    destruct (pop_front q) as [r| |]; cbn [rbind]; try reflexivity. destruct (ok_or r EConsumeFailure) as [q'| |]; cbn [rbind]; try reflexivity. apply IH.
  - cbn [rbind]. destruct b; cbn [consume_loop]; [reflexivity|]. rewrite PK. cbn [rbind]. rewrite VW. cbn [rbind]. rewrite BS. reflexivity.
Qed.

Section Crank.
Variable e : env.
Hypothesis EO : env_ok e.
Notation D := (dexd e).

Lemma has_key s x : a_prog (sget s x) = e_prog e -> exists a, sfind s x = Some a.
Proof. unfold sget. destruct (sfind s x); [eauto|]. intros H. exfalso. apply (eo_sys _ EO). rewrite <- H. reflexivity. Qed.
Lemma sput_comm s : forall x y a b c d, x <> y -> sfind s x = Some c -> sfind s y = Some d -> sput (sput s x a) y b = sput (sput s y b) x a.
Proof.
  induction s as [|[z w] r IH]; intros x y a b c d N F1 F2; [discriminate|]. cbn [sfind] in F1, F2. cbn [sput].
  destruct (Z.eqb_spec z x) as [E1|]; destruct (Z.eqb_spec z y) as [E2|]; try congruence; cbn [sput].
  - replace (x =? y) with false by lia. replace (z =? x) with true by lia. reflexivity.
  - replace (z =? y) with true by lia. replace (y =? x) with false by lia. reflexivity.
  - replace (z =? y) with false by lia. replace (z =? x) with false by lia. f_equal. eapply IH; eassumption.
Qed.
Lemma sput_twice s x a b : sput (sput s x a) x b = sput s x b.
Proof. induction s as [|[z w] r IH]; cbn [sput]; [rewrite Z.eqb_refl; reflexivity|]. destruct (Z.eqb_spec z x) as [->|N]; cbn [sput]; [rewrite Z.eqb_refl; reflexivity|]. replace (z =? x) with false by lia. f_equal. exact IH. Qed.
Lemma put_twice s x d d' : put_data (put_data s x d) x d' = put_data s x d'.
Proof. unfold put_data at 1. rewrite sget_put, Z.eqb_refl. unfold put_data. rewrite sput_twice. reflexivity. Qed.
Lemma put_comm s x y d d' : x <> y -> a_prog (sget s x) = e_prog e -> a_prog (sget s y) = e_prog e -> put_data (put_data s x d) y d' = put_data (put_data s y d') x d.
Proof.
  intros N P1 P2. destruct (has_key _ _ P1) as (c & F1), (has_key _ _ P2) as (c' & F2). unfold put_data at 1 3. rewrite !sget_put. replace (y =? x) with false by lia. replace (x =? y) with false by lia.
  unfold put_data. eapply sput_comm; eassumption.
Qed.
(** The accounts the loop writes. *)
Lemma load_orders_none s m x oo : load_orders e s m x None None None = Ok oo -> a_prog (sget s x) = e_prog e /\ exists oo0, a_data (sget s x) = DOO oo0.
Proof.
  intros H. unfold load_orders in H. apply rbind_ok in H. destruct H as (? & HP & H). apply check_ok in HP. split; [lia|].
  apply rbind_ok in H. destruct H as (o0 & H0 & H). destruct (a_data (sget s x)) as [|?| | | |oo0| | |]; try discriminate; [|eauto]. exfalso.
  destruct (a_len (sget s x) =? OO_LEN); [|discriminate]. injection H0 as <-. apply rbind_ok in H. destruct H as (o1 & H1 & _). change (oo_flags oo_zero =? 0) with true in H1. cbv iota in H1.
  apply rbind_ok in H1. destruct H1 as (? & _ & H1). discriminate.
Qed.
Lemma loop_fixed m oos y : forall n s q s' q', (a_prog (sget s y) = e_prog e -> forall oo, a_data (sget s y) <> DOO oo) -> consume_loop e s m q oos n = Ok (s', q') -> sget s' y = sget s y.
Proof.
  induction n as [|n IH]; intros s q s' q' NO H; cbn [consume_loop] in H; [congruence|].
  apply rbind_ok in H. destruct H as (oev & PK & H). destruct oev as [ev|]; [|congruence]. apply rbind_ok in H. destruct H as (v & VW & H).
  destruct (binary_search oos (e_owner ev)) eqn:BS; [|congruence]. apply rbind_ok in H. destruct H as (oo & LO & H). apply rbind_ok in H. destruct H as (oo' & CE & H). apply rbind_ok in H. destruct H as (r & PO & H).
  apply rbind_ok in H. destruct H as (q1 & HQ & H). destruct (load_orders_none _ _ _ _ LO) as (P1 & oo0 & P2).
  assert (N : y <> e_owner ev) by (intros ->; exact (NO P1 _ P2)).
  assert (E : sget (put_data s (e_owner ev) (DOO oo')) y = sget s y) by (rewrite sget_put; replace (y =? e_owner ev) with false by lia; reflexivity).
  rewrite (IH _ _ _ _ ltac:(rewrite E; exact NO) H). exact E.
Qed.
Lemma loop_only m oos y : ~ In y oos -> forall n s q s' q', consume_loop e s m q oos n = Ok (s', q') -> sget s' y = sget s y.
Proof.
  intros NI. induction n as [|n IH]; intros s q s' q' H; cbn [consume_loop] in H; [congruence|].
  apply rbind_ok in H. destruct H as (oev & PK & H). destruct oev as [ev|]; [|congruence]. apply rbind_ok in H. destruct H as (v & VW & H).
  destruct (binary_search oos (e_owner ev)) eqn:BS; [|congruence]. apply rbind_ok in H. destruct H as (oo & LO & H). apply rbind_ok in H. destruct H as (oo' & CE & H). apply rbind_ok in H. destruct H as (r & PO & H).
  apply rbind_ok in H. destruct H as (q1 & HQ & H). apply binary_search_sound in BS.
  assert (N : y <> e_owner ev) by (intros ->; exact (NI BS)). rewrite (IH _ _ _ _ H), sget_put. replace (y =? e_owner ev) with false by lia. reflexivity.
Qed.
(** The loop does not look at the queue's account. *)
Lemma loop_at_q m oos z q0 d : D z (m_event_q m) = Some (DEventQ d) -> forall n s q, sget s (m_event_q m) = sget z (m_event_q m) ->
  consume_loop e (put_data s (m_event_q m) (DEventQ q0)) m q oos n = ('(s1, q1) <- consume_loop e s m q oos n ;; Ok (put_data s1 (m_event_q m) (DEventQ q0), q1)).
Proof.
  intros HZ. apply dexd_owned in HZ. destruct HZ as [HZ1 HZ2]. set (eqa := m_event_q m) in *. induction n as [|n IH]; intros s q ES; cbn [consume_loop]; [reflexivity|].
  destruct (peek_front q) as [oev| |]; cbn [rbind]; try reflexivity. destruct oev as [ev|]; [|reflexivity].
  destruct (event_as_view ev) as [v| |] eqn:VW; cbn [rbind]; try reflexivity. destruct (binary_search oos (e_owner ev)) eqn:BS; [|reflexivity].
  set (x := e_owner ev) in *. destruct (Z.eq_dec x eqa) as [EX|NX].
  - assert (F : forall s0, a_prog (sget s0 eqa) = e_prog e -> (exists q2, a_data (sget s0 eqa) = DEventQ q2) -> load_orders e s0 m x None None None = Err EWrongOrdersAccount).
    { intros s0 F1 (q2 & F2). unfold load_orders. rewrite EX, F1, F2, Z.eqb_refl. reflexivity. }
    rewrite (F s), (F (put_data s eqa (DEventQ q0))); try reflexivity.
    + rewrite put_prog, ES. exact HZ1.
    + rewrite put_data_eq, Z.eqb_refl. eauto.
    + rewrite ES. exact HZ1.
    + rewrite ES. eauto.
  - assert (E : load_orders e (put_data s eqa (DEventQ q0)) m x None None None = load_orders e s m x None None None).
    { unfold load_orders. rewrite sget_put. replace (x =? eqa) with false by lia. reflexivity. }
    rewrite E. destruct (load_orders e s m x None None None) as [oo| |] eqn:LO; cbn [rbind]; try reflexivity. destruct (consume_event oo v) as [oo'| |]; cbn [rbind]; try reflexivity.
    destruct (pop_front q) as [r| |]; cbn [rbind]; try reflexivity. destruct (ok_or r EConsumeFailure) as [q'| |]; cbn [rbind]; try reflexivity.
    rewrite put_comm.
    + apply IH. rewrite sget_put. replace (eqa =? x) with false by lia. exact ES.
    + lia.
    + rewrite ES. exact HZ1.
    + apply (load_orders_none _ _ _ _ LO).
Qed.
Lemma with_split s k m oos qa a b : wstruct (D s) -> D s k = Some (DMarket m) -> 0 <= a -> 0 <= b ->
  (s1 <- consume_with e s m qa oos a ;; consume_with e s1 m qa oos b) = consume_with e s m qa oos (a + b).
Proof.
  intros W HM HA HB. unfold consume_with. destruct (load_event_q s m qa) as [q| |] eqn:LQ; cbn [rbind]; try reflexivity.
  destruct (load_evq_ok e s k m W HM _ _ LQ) as [-> HQ]. rewrite Z2Nat.inj_add, loop_split by assumption.
  destruct (consume_loop e s m q oos (Z.to_nat a)) as [[s1 q1]| |] eqn:C1; cbn [rbind]; try reflexivity.
  assert (F : sget s1 (m_event_q m) = sget s (m_event_q m)).
  { eapply loop_fixed; [|exact C1]. intros _ oo. apply dexd_owned in HQ. destruct HQ. congruence. }
  unfold load_event_q. rewrite Z.eqb_refl, put_data_eq, Z.eqb_refl. cbn [check rbind].
  rewrite (loop_at_q m oos s q1 q HQ _ _ _ F). destruct (consume_loop e s1 m q1 oos (Z.to_nat b)) as [[s2 q2]| |]; cbn [rbind]; try reflexivity. rewrite put_twice. reflexivity.
Qed.
Lemma market_kept s k m oos qa n s1 : wstruct (D s) -> D s k = Some (DMarket m) -> consume_with e s m qa oos n = Ok s1 -> sget s1 k = sget s k.
Proof.
  intros W HM H. unfold consume_with in H. apply rbind_ok in H. destruct H as (q & LQ & H). apply rbind_ok in H. destruct H as ([s2 q2] & CL & H). injection H as <-.
  destruct (load_evq_ok e s k m W HM _ _ LQ) as [-> HQ]. rewrite sget_put.
  assert (N : k <> m_event_q m) by (intros E; rewrite <- E in HQ; congruence). replace (k =? m_event_q m) with false by lia.
  eapply loop_fixed; [|exact CL]. intros _ oo. apply dexd_owned in HM. destruct HM. congruence.
Qed.
Theorem consume_split c s a b ms : wstruct (D s) -> 0 <= a -> 0 <= b ->
  (s1 <- process e c s (IConsumeEvents a) ms ;; process e c s1 (IConsumeEvents b) ms) = process e c s (IConsumeEvents (a + b)) ms /\
  (s1 <- process e c s (IConsumePermissioned a) ms ;; process e c s1 (IConsumePermissioned b) ms) = process e c s (IConsumePermissioned (a + b)) ms.
Proof.
  intros W HA HB. cbn [process]. unfold proc_consume, proc_consume_perm. split.
  - destruct (rev ms) as [|z1 [|z2 [|eqa [|mkt [|z3 z4]]]]]; try reflexivity. destruct (load_market e s (mk mkt) true) as [m| |] eqn:LM; cbn [rbind]; try reflexivity.
    destruct (check (match crank_authority m with None => true | Some _ => false end) EAssert) eqn:CK; cbn [rbind]; try reflexivity.
    pose proof (load_market_ok e _ _ _ _ LM) as [HM _]. rewrite <- (with_split s _ m _ _ a b W HM HA HB). destruct (consume_with e s m (mk eqa) _ a) as [s1| |] eqn:C1; cbn [rbind]; try reflexivity.
    assert (LM1 : load_market e s1 (mk mkt) true = Ok m) by (unfold load_market in *; rewrite (market_kept _ _ _ _ _ _ _ W HM C1); exact LM). rewrite LM1. cbn [rbind]. rewrite CK. reflexivity.
  - destruct (rev ms) as [|z1 [|eqa [|mkt [|z3 z4]]]]; try reflexivity. destruct (load_market e s (mk mkt) true) as [m| |] eqn:LM; cbn [rbind]; try reflexivity.
    destruct (check_signer z1) eqn:CS; cbn [rbind]; try reflexivity.
    destruct (check (opt_eqb (crank_authority m) (Some (mk z1))) EAssert) eqn:CK; cbn [rbind]; try reflexivity.
    pose proof (load_market_ok e _ _ _ _ LM) as [HM _]. rewrite <- (with_split s _ m _ _ a b W HM HA HB). destruct (consume_with e s m (mk eqa) _ a) as [s1| |] eqn:C1; cbn [rbind]; try reflexivity.
    assert (LM1 : load_market e s1 (mk mkt) true = Ok m) by (unfold load_market in *; rewrite (market_kept _ _ _ _ _ _ _ W HM C1); exact LM). rewrite LM1. cbn [rbind]. rewrite CK. reflexivity.
Qed.

(** ** The loop always succeeds *)
Lemma loop_total k m oos n : proper m -> forall s q, mid e k m s q -> exists s' q', consume_loop e s m q oos n = Ok (s', q').
Proof.
  intros P. induction n as [|n IH]; intros s q MD; cbn [consume_loop]; [eauto|].
  destruct (mid_queue e k m s q MD P) as [QO (vs & EV)]. pose proof (pop_front_spec q QO) as PS. rewrite EV in PS. destruct vs as [|v r]; cbn [map] in PS.
  - destruct PS as [_ PK]. rewrite PK. cbn [rbind]. eauto.
  - destruct PS as (PK & q' & PO & _). rewrite PK. cbn [rbind]. rewrite event_roundtrip. cbn [rbind]. rewrite new_owner. destruct (binary_search oos (ev_owner v)); [|eauto].
    pose proof MD as [MM MQ MI MF]. pose proof MQ as (q0 & Q0). assert (NK : k <> m_event_q m) by (intros EK; rewrite EK in MM; congruence).
    assert (HMS : D (at_q m s q) k = Some (DMarket m)) by (rewrite at_q_D by assumption; replace (k =? m_event_q m) with false by lia; exact MM).
    destruct (wi_mkt _ _ MI k m HMS P) as (seq & L & A & o & MS).
    assert (EQ : ob_eq o = q) by (pose proof (ms_evq _ _ _ _ _ _ _ MS) as E; rewrite at_q_D, Z.eqb_refl in E by assumption; congruence).
    assert (AI : ainv m seq L A) by (rewrite <- (ms_mkt _ _ _ _ _ _ _ MS); apply cinv_ainv; exact (ms_inv _ _ _ _ _ _ _ MS)).
    assert (EA : a_evs A = v :: r) by (apply map_new_inj; rewrite <- EV, <- EQ; symmetry; apply (r_evs _ _ (ci_rep _ _ _ _ (ms_inv _ _ _ _ _ _ _ MS)))).
    destruct (ai_evown _ _ _ _ AI v) as [OWN _]; [rewrite EA; left; reflexivity|]. apply in_map_iff in OWN. destruct OWN as ([x oo] & EX & IN). cbn [fst] in EX. subst x.
    assert (LV : live (D (at_q m s q)) k (ev_owner v) oo) by (apply (ms_lists _ _ _ _ _ _ _ MS); exact IN).
    assert (NX : ev_owner v <> m_event_q m). { intros E. destruct LV as (LV & _). rewrite E, at_q_D, Z.eqb_refl in LV by assumption. discriminate. }
    assert (LO : load_orders e s m (ev_owner v) None None None = Ok oo).
    { assert (LO : load_orders e (at_q m s q) m (ev_owner v) None None None = Ok oo) by (eapply load_live_fwd; [exact (wi_str _ _ MI)|exact HMS|exact LV|discriminate]).
      unfold load_orders in *. unfold at_q in LO. rewrite sget_put in LO. replace (ev_owner v =? m_event_q m) with false in LO by lia. exact LO. }
    rewrite LO. cbn [rbind]. destruct (lists_take _ _ _ _ _ (ms_lists _ _ _ _ _ _ _ MS) LV) as (rest & PM & _).
    assert (AI' : ainv m seq ((ev_owner v, oo) :: rest) A).
    { rewrite <- (ms_mkt _ _ _ _ _ _ _ MS). apply cinv_ainv. eapply cinv_perm; [exact PM|exact (ms_inv _ _ _ _ _ _ _ MS)]. }
    assert (FT : fits m A). { destruct (MF P) as [F1 F2]. unfold fits, paid_coin, paid_pc. rewrite (pending_map ev_paid_coin A), (pending_map ev_paid_pc A) in * by (rewrite EA; exact EV). auto. }
    destruct (consume_applies m seq (ev_owner v) oo rest A v r AI' EA eq_refl FT) as (oo' & CE & AP). rewrite CE. cbn [rbind]. rewrite PO. cbn [rbind ok_or fst].
    apply IH. destruct (consume_one e EO k m s q (event_new v) v oo oo' q' (event_new v) MD PK (event_roundtrip v)) as (M1 & _); rewrite ?new_owner; try assumption. rewrite new_owner in M1. exact M1.
Qed.

(** ** What a consume does *)
Lemma replay_booked k vs : forall d d', replay k d vs d' ->
  (forall y, ~ In y (map ev_owner vs) -> d' y = d y) /\
  (forall y oo, live d k y oo -> exists oo', live d' k y oo' /\ booked (filter (fun v => ev_owner v =? y) vs) oo oo') /\
  (forall y oo', live d' k y oo' -> exists oo, live d k y oo).
Proof.
  induction vs as [|v r IH]; intros d d' H; cbn [replay] in H.
  - split; [intros; apply H|]. split; [intros y oo LV; exists oo; split; [unfold live in *; rewrite H; exact LV|reflexivity]|]. intros y oo LV. exists oo. unfold live in *. rewrite <- H. exact LV.
  - destruct H as (oo & oo' & d1 & LV & AP & HD & H). destruct (IH _ _ H) as (I1 & I2 & I3). pose proof (ap_id _ _ _ AP) as (J1 & J2 & J3).
    assert (LV1 : live d1 k (ev_owner v) oo') by (destruct LV as (? & ? & ?); split; [rewrite HD, Z.eqb_refl; reflexivity|split; congruence]).
    split; [|split].
    + intros y NI. cbn [map In] in NI. rewrite I1 by tauto. rewrite HD. replace (y =? ev_owner v) with false by lia. reflexivity.
    + intros y oy LY. cbn [filter]. destruct (Z.eqb_spec (ev_owner v) y) as [<-|N].
      * assert (oy = oo) as -> by (destruct LY, LV; congruence). destruct (I2 _ _ LV1) as (o2 & L2 & B2). exists o2. split; [assumption|]. exists oo'. split; [apply applied_booked; exact AP|exact B2].
      * apply I2. unfold live in *. rewrite HD. replace (y =? ev_owner v) with false by lia. exact LY.
    + intros y oy LY. destruct (I3 _ _ LY) as (o1 & L1). unfold live in L1. rewrite HD in L1. destruct (Z.eqb_spec y (ev_owner v)) as [->|N]; [eauto|]. exists o1. exact L1.
Qed.

Section One.
Variables (s : store) (k : Z) (m : market) (A : astate) (L : list (Z * open_orders)).
Hypothesis (WI : winv e s) (G : no_overflow e s) (SN : seen e s k m A L) (P : usable m).
Lemma with_consumes oos n qa s' : StronglySorted Z.lt oos -> consume_with e s m qa oos n = Ok s' -> consumes e s s' k m A L (served (Z.to_nat n) oos (a_evs A)).
Proof.
  intros SO H. pose proof (sn_mkt _ _ _ _ _ _ SN) as HM. destruct (ws_evq _ (wi_str _ _ WI) _ _ HM) as (q & HQ).
  assert (QF : proper m -> qfits m q) by (intros PR; eapply guard_fits; eauto).
  destruct (step_consume e EO k m s q qa oos n s' WI HM HQ QF H) as (-> & WI' & QU & s1 & q' & CL & -> & MD').
  destruct (consume_loop_inv e EO k m oos _ _ _ _ _ (mid_start e EO k m s q WI HM HQ QF) CL) as (_ & _ & RP). destruct (RP P) as (vs & E1 & E2 & E3 & E4 & E5).
  destruct (seen_state e s k m A L WI SN P) as (seq & o & MS).
  assert (EQ : ob_eq o = q) by (pose proof (ms_evq _ _ _ _ _ _ _ MS) as E; congruence). pose proof (r_evs _ _ (ci_rep _ _ _ _ (ms_inv _ _ _ _ _ _ _ MS))) as RE. rewrite EQ in RE.
  destruct (mid_queue e k m s1 q' MD' P) as [QO' (rest & ER)].
  assert (EA : a_evs A = vs ++ rest) by (apply map_new_inj; rewrite map_app, <- RE, <- ER; exact E1).
  assert (SV : served (Z.to_nat n) oos (a_evs A) = vs).
  { rewrite EA. apply served_is; try assumption. destruct E3 as [E3|[E3|(v & r & E3 & B)]]; [left; assumption|right; left; rewrite E3 in ER; destruct rest; [reflexivity|discriminate]|].
    right. right. rewrite ER in E3. destruct rest as [|v' r']; [discriminate|]. cbn [map] in E3. injection E3 as X Y. apply new_inj in X. subst v'. eauto. }
  rewrite SV. destruct (replay_booked k _ _ _ E5) as (R1 & R2 & R3). pose proof MD' as [MM MQ _ _]. set (eqa := m_event_q m) in *.
  assert (NK : k <> eqa) by (intros EK; destruct MQ; rewrite EK in MM; congruence).
  assert (DE : forall y, D (at_q m s1 q') y = if y =? eqa then Some (DEventQ q') else D s1 y) by (intros; apply at_q_D; assumption).
  assert (HM' : D (at_q m s1 q') k = Some (DMarket m)) by (rewrite DE; replace (k =? eqa) with false by lia; exact MM).
  assert (LQ : forall y oy, live (D (at_q m s1 q')) k y oy <-> live (D s1) k y oy).
  { intros y oy. unfold live. rewrite DE. destruct (Z.eqb_spec y eqa) as [->|]; [|reflexivity]. destruct MQ as (q0 & Q0). split; intros (X & _); exfalso; congruence. }
  destruct (wi_mkt _ _ WI' k m HM' P) as (seq' & L' & A' & o' & MS'). pose proof (state_seen e _ _ _ _ _ _ _ HM' MS') as SN'.
  assert (FX : forall y d, D s y = Some d -> (forall oo, d <> DOO oo) -> y <> eqa -> D (at_q m s1 q') y = Some d).
  { intros y d Hy ND Ny. rewrite DE. replace (y =? eqa) with false by lia. unfold dexd. rewrite (loop_fixed m oos y _ _ _ _ _ ltac:(intros _ oo; apply dexd_owned in Hy; destruct Hy as [_ ->]; apply ND) CL). exact Hy. }
  assert (A' = mkA (a_bids A) (a_asks A) rest) as ->.
  { destruct SN' as [_ (b' & B1 & B2) (a' & C1 & C2) (q2 & Q1 & Q2) _ _]. destruct SN as [_ (b & B3 & B4) (a & C3 & C4) _ _ _].
    apply astate_eq; cbn [a_bids a_asks a_evs].
    - rewrite (FX _ _ B3 ltac:(discriminate)) in B1; [congruence|]. intros E. rewrite E in B3. congruence.
    - rewrite (FX _ _ C3 ltac:(discriminate)) in C1; [congruence|]. intros E. rewrite E in C3. congruence.
    - fold eqa in Q1. rewrite DE, Z.eqb_refl in Q1. injection Q1 as <-. eapply views_fun; [exact Q2|]. rewrite ER. apply views_map. }
  exists rest, L'. split; [assumption|]. split; [exact SN'|]. pose proof (ms_lists _ _ _ _ _ _ _ MS) as [_ LI]. pose proof (ms_lists _ _ _ _ _ _ _ MS') as [_ LI'].
  split; [|split].
  - intros x. rewrite !in_map_iff. split.
    + intros ([y oy] & <- & I). apply LI', LQ in I. destruct (R3 _ _ I) as (o0 & L0). apply LI in L0. exists (y, o0). auto.
    + intros ([y oy] & <- & I). apply LI in I. destruct (R2 _ _ I) as (o0 & L0 & _). apply LQ, LI' in L0. exists (y, o0). auto.
  - intros x oo I. apply LI in I. destruct (R2 _ _ I) as (o0 & L0 & B0). exists o0. split; [apply LI', LQ; exact L0|exact B0].
  - intros y NI. cbn [In] in NI. unfold at_q. fold eqa. rewrite sget_put. replace (y =? eqa) with false by (fold eqa in NI; lia).
    destruct (Z.eq_dec (a_prog (sget s y)) (e_prog e)) as [PY|PY].
    + destruct (consume_loop_inv e EO k m oos _ _ _ _ _ (mid_start e EO k m s q WI HM HQ QF) CL) as (_ & [Q1 Q2 Q3 Q4] & _).
      assert (NV : ~ In y (map ev_owner vs)) by tauto. pose proof (R1 y NV) as DY. unfold dexd in DY. rewrite Q3, PY, Z.eqb_refl in DY. injection DY as DY.
      pose proof (Q2 y). pose proof (Q3 y). pose proof (Q4 y). destruct (sget s1 y), (sget s y). cbn in *. congruence.
    + eapply loop_fixed; [|exact CL]. intros X. contradiction.
Qed.
Lemma rev_shape (ms : list meta) l t : map mk ms = l ++ t -> exists m1 m2, ms = m1 ++ m2 /\ map mk m1 = l /\ map mk m2 = t.
Proof. intros H. apply map_eq_app in H. destruct H as (a & b & -> & <- & <-). eauto. Qed.
Theorem crank_effect c i ms q oos n s' : crank i ms k q oos n -> StronglySorted Z.lt oos -> process e c s i ms = Ok s' ->
  q = m_event_q m /\ crank_allowed m i ms /\ consumes e s s' k m A L (served (Z.to_nat n) oos (a_evs A)).
Proof.
  intros (NE & Hn & HI) SO H. pose proof (sn_mkt _ _ _ _ _ _ SN) as HM. pose proof (wi_str _ _ WI) as W. destruct HI as [(-> & a & b & KM)|(-> & a & KM)].
  - destruct (rev_shape _ _ _ KM) as (m1 & m2 & -> & K1 & K2). destruct m2 as [|x1 [|x2 [|x3 [|x4 [|? ?]]]]]; try discriminate. cbn [map] in K2. injection K2 as E1 E2 E3 E4.
    cbn [process] in H. unfold proc_consume in H. rewrite rev_app_distr in H. cbn [rev app] in H. destruct m1 as [|y r] eqn:M1; [cbn [map] in K1; congruence|]. rewrite <- M1 in *.
    assert (R : exists z t, rev m1 = z :: t). { destruct (rev m1) eqn:RV; [|eauto]. apply (f_equal (@rev _)) in RV. rewrite rev_involutive in RV. subst m1. discriminate. }
    destruct R as (z & t & R). rewrite R in H. rewrite <- R, rev_involutive, K1, E1, E2 in H. apply rbind_ok in H. destruct H as (m' & LM & H).
    assert (m' = m) as -> by (apply load_market_ok in LM; destruct LM; congruence). apply rbind_ok in H. destruct H as (u & CK & H). apply check_ok in CK.
    split; [|split].
    + pose proof H as H2. unfold consume_with in H2. apply rbind_ok in H2. destruct H2 as (q0 & LQ & _). exact (proj1 (load_evq_ok e s k m W HM _ _ LQ)).
    + cbn [crank_allowed]. unfold crank_authority in CK. destruct (has_flag (m_flags m) AF_Permissioned); [|left; reflexivity]. destruct (has_flag (m_flags m) AF_CrankAuth); [discriminate|right; reflexivity].
    + eapply with_consumes; eassumption.
  - destruct (rev_shape _ _ _ KM) as (m1 & m2 & -> & K1 & K2). destruct m2 as [|x1 [|x2 [|x3 [|? ?]]]]; try discriminate. cbn [map] in K2. injection K2 as E1 E2 E3.
    cbn [process] in H. unfold proc_consume_perm in H. rewrite rev_app_distr in H. cbn [rev app] in H. destruct m1 as [|y r] eqn:M1; [cbn [map] in K1; congruence|]. rewrite <- M1 in *.
    assert (R : exists z t, rev m1 = z :: t). { destruct (rev m1) eqn:RV; [|eauto]. apply (f_equal (@rev _)) in RV. rewrite rev_involutive in RV. subst m1. discriminate. }
    destruct R as (z & t & R). rewrite R in H. rewrite <- R, rev_involutive, K1, E1, E2 in H. apply rbind_ok in H. destruct H as (m' & LM & H).
    assert (m' = m) as -> by (apply load_market_ok in LM; destruct LM; congruence). apply rbind_ok in H. destruct H as (u & SG & H). apply rbind_ok in H. destruct H as (u' & CK & H). apply check_ok in CK. apply check_ok in SG.
    split; [|split].
    + pose proof H as H2. unfold consume_with in H2. apply rbind_ok in H2. destruct H2 as (q0 & LQ & _). exact (proj1 (load_evq_ok e s k m W HM _ _ LQ)).
    + cbn [crank_allowed]. unfold crank_authority in CK. destruct (has_flag (m_flags m) AF_Permissioned); [|discriminate]. destruct (has_flag (m_flags m) AF_CrankAuth); [|discriminate]. cbn [opt_eqb] in CK.
      split; [reflexivity|]. split; [reflexivity|]. exists (m1 ++ [x1; x2]). rewrite <- app_assoc. cbn [app]. destruct x3 as [k3 b3]. cbn in *. apply Z.eqb_eq in CK. subst. reflexivity.
    + eapply with_consumes; eassumption.
Qed.
(** A consume never fails. *)
Theorem crank_succeeds c i ms oos n : crank i ms k (m_event_q m) oos n -> crank_allowed m i ms -> exists s', process e c s i ms = Ok s'.
Proof.
  intros (NE & Hn & HI) AL. pose proof (sn_mkt _ _ _ _ _ _ SN) as HM. pose proof (wi_str _ _ WI) as W. destruct (ws_evq _ W _ _ HM) as (q & HQ).
  assert (QF : proper m -> qfits m q) by (intros PR; eapply guard_fits; eauto).
  assert (CW : exists s', consume_with e s m (m_event_q m) oos n = Ok s').
  { unfold consume_with. rewrite (load_evq_fwd e s m q HQ). cbn [rbind]. destruct (loop_total k m oos (Z.to_nat n) P s q (mid_start e EO k m s q WI HM HQ QF)) as (s1 & q1 & E). rewrite E. cbn [rbind]. eauto. }
  destruct HI as [(-> & a & b & KM)|(-> & a & KM)].
  - destruct (rev_shape _ _ _ KM) as (m1 & m2 & -> & K1 & K2). destruct m2 as [|x1 [|x2 [|x3 [|x4 [|? ?]]]]]; try discriminate. cbn [map] in K2. injection K2 as E1 E2 E3 E4.
    cbn [process]. unfold proc_consume. rewrite rev_app_distr. cbn [rev app]. destruct m1 as [|y r] eqn:M1; [cbn [map] in K1; congruence|]. rewrite <- M1 in *.
    assert (R : exists z t, rev m1 = z :: t). { destruct (rev m1) eqn:RV; [|eauto]. apply (f_equal (@rev _)) in RV. rewrite rev_involutive in RV. subst m1. discriminate. }
    destruct R as (z & t & R). rewrite R. rewrite <- R, rev_involutive, K1, E1, E2, (load_market_any e s k m W HM). cbn [rbind].
    cbn [crank_allowed] in AL. unfold crank_authority. destruct AL as [-> | ->]; [exact CW|]. destruct (has_flag (m_flags m) AF_Permissioned); exact CW.
  - destruct (rev_shape _ _ _ KM) as (m1 & m2 & -> & K1 & K2). destruct m2 as [|x1 [|x2 [|x3 [|? ?]]]]; try discriminate. cbn [map] in K2. injection K2 as E1 E2 E3.
    cbn [process]. unfold proc_consume_perm. rewrite rev_app_distr. cbn [rev app]. destruct m1 as [|y r] eqn:M1; [cbn [map] in K1; congruence|]. rewrite <- M1 in *.
    assert (R : exists z t, rev m1 = z :: t). { destruct (rev m1) eqn:RV; [|eauto]. apply (f_equal (@rev _)) in RV. rewrite rev_involutive in RV. subst m1. discriminate. }
    destruct R as (z & t & R). rewrite R. rewrite <- R, rev_involutive, K1, E1, E2, (load_market_any e s k m W HM). cbn [rbind].
    cbn [crank_allowed] in AL. destruct AL as (A1 & A2 & ms0 & A3). change (m1 ++ [x1; x2; x3]) with (m1 ++ ([x1; x2] ++ [x3])) in A3. rewrite app_assoc in A3. apply app_inj_tail in A3. destruct A3 as [_ ->].
    unfold check_signer. cbn [mk_signer check rbind]. unfold crank_authority. rewrite A1, A2. cbn [opt_eqb mk]. rewrite Z.eqb_refl. exact CW.
Qed.
Theorem crank_head c i ms v r : a_evs A = v :: r -> crank i ms k (m_event_q m) [ev_owner v] 1 -> crank_allowed m i ms ->
  exists s', process e c s i ms = Ok s' /\ consumes e s s' k m A L [v].
Proof.
  intros EA CR AL. destruct (crank_succeeds c i ms _ _ CR AL) as (s' & H). exists s'. split; [assumption|].
  destruct (crank_effect c i ms _ _ _ s' CR) as (_ & _ & E); [repeat constructor|assumption|]. rewrite EA in E. change (Z.to_nat 1) with 1%nat in E. cbn [served existsb] in E.
  rewrite Z.eqb_refl in E. cbn [orb] in E. exact E.
Qed.
Theorem crank_drain c i ms oos n : crank i ms k (m_event_q m) oos n -> crank_allowed m i ms -> StronglySorted Z.lt oos -> (forall v, In v (a_evs A) -> In (ev_owner v) oos) -> zlen (a_evs A) <= n ->
  exists s', process e c s i ms = Ok s' /\ consumes e s s' k m A L (a_evs A).
Proof.
  intros CR AL SO IN LE. destruct (crank_succeeds c i ms _ _ CR AL) as (s' & H). exists s'. split; [assumption|].
  destruct (crank_effect c i ms _ _ _ s' CR) as (_ & _ & E); [assumption..|]. rewrite served_all in E; [exact E|assumption|unfold zlen in LE; lia].
Qed.
End One.
End Crank.
