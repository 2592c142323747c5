(** Sizes: no instruction changes the length of an account or of an event queue, and only closing moves
    lamports. *)
From Verif Require Import Base BaseProofs Fees ListSum Queue Codec Critbit Market Matching Core CoreFrame Instr InstrProofs Store Process StoreProofs World WorldInv WorldLoad WorldSpec WorldRights ProxyAmounts ProxyMain.

(** ** The event queue keeps its length *)
Definition qcap (o : obs) : Z := zlen (q_buf (ob_eq o)).
Lemma push_cap {X} (q : queue X) v q' : push_back q v = Ok (Some q') -> zlen (q_buf q') = zlen (q_buf q).
Proof.
  unfold push_back. destruct (q_full q); [discriminate|]. intros H. peel H. peel H. injection H as <-. cbn [q_buf]. apply zupd_len.
Qed.
Lemma emit_cap o v o' : emit o v = Ok o' -> qcap o' = qcap o.
Proof. unfold emit. intros H. peel H. destruct v0 as [q|]; [|discriminate]. injection H as <-. exact (push_cap _ _ _ E). Qed.
Lemma orders_cap o s x : qcap (set_orders o s x) = qcap o. Proof. destruct s; reflexivity. Qed.
Lemma rm_cap o s k o' : remove_order_by_key o s k = Ok o' -> qcap o' = qcap o.
Proof. unfold remove_order_by_key. intros H. peel H. destruct v as [sl l]. peel H. injection H as <-. apply orders_cap. Qed.
Lemma write_cap o s h l q : qcap (write_qty o s h l q) = qcap o. Proof. apply orders_cap. Qed.
Lemma mkt_cap o m : qcap (set_mkt o m) = qcap o. Proof. reflexivity. Qed.
Lemma post_cap o sd l o' : post_order o sd l = Ok o' -> qcap o' = qcap o.
Proof.
  unfold post_order. intros H. apply rbind_ok in H. destruct H as ([s1 out] & _ & H). destruct out; [injection H as <-; apply orders_cap|].
  apply rbind_ok in H. destruct H as ([s2 ev] & _ & H). apply rbind_ok in H. destruct H as (? & _ & H). apply rbind_ok in H. destruct H as (? & _ & H).
  apply rbind_ok in H. destruct H as (o1 & HE & H). apply rbind_ok in H. destruct H as ([s3 out2] & _ & H). destruct out2; [|discriminate].
  injection H as <-. rewrite orders_cap, (emit_cap _ _ _ HE). apply orders_cap.
Qed.
Ltac qfacts0 := repeat match goal with
  | H : emit _ _ = Ok _ |- _ => apply emit_cap in H
  | H : remove_order_by_key _ _ _ = Ok _ |- _ => apply rm_cap in H
  | H : post_order _ _ _ = Ok _ |- _ => apply post_cap in H
  end; repeat match goal with
  | H : qcap ?x = _ |- context [qcap ?x] => rewrite H
  | |- context [qcap (write_qty _ _ _ _ _)] => rewrite write_cap
  | |- context [qcap (set_orders _ _ _)] => rewrite orders_cap
  | |- context [qcap (set_mkt _ _)] => rewrite mkt_cap
  end; first [reflexivity | unfold qcap in *; cbn [ob_eq] in *; congruence].
Lemma ask_finish_cap o pr p a b c d x y o' pr' r : ask_finish o pr p a b c d x y = Ok (o', pr', r) -> qcap o' = qcap o.
Proof. unfold ask_finish. intros H. cbv zeta in H. split_all; qfacts0. Qed.
Lemma bid_finish_cap o pr p a b c d x y z w v o' pr' r : bid_finish o pr p a b c d x y z w v = Ok (o', pr', r) -> qcap o' = qcap o.
Proof. unfold bid_finish. intros H. cbv zeta in H. split_all; qfacts0. Qed.
Ltac qfacts := repeat match goal with
  | H : ask_finish _ _ _ _ _ _ _ _ _ = Ok _ |- _ => apply ask_finish_cap in H
  | H : bid_finish _ _ _ _ _ _ _ _ _ _ _ _ = Ok _ |- _ => apply bid_finish_cap in H
  end; qfacts0.
Lemma new_ask_cap o pr p q l po o' pr' r : new_ask o pr p q l po = Ok (o', pr', r) -> qcap o' = qcap o.
Proof.
  unfold new_ask. intros H. cbv zeta in H. split_all; qfacts.
Qed.
Lemma new_bid_cap o pr p q lk l po o' pr' r : new_bid o pr p q lk l po = Ok (o', pr', r) -> qcap o' = qcap o.
Proof.
  unfold new_bid. intros H. cbv zeta in H. split_all; qfacts.
Qed.
Lemma loop_cap n : forall o pr p sd po q lk o' pr' r, new_order_loop n o pr p sd po q lk = Ok (o', pr', r) -> qcap o' = qcap o.
Proof.
  induction n as [|n IH]; intros * H; cbn [new_order_loop] in H; cbv zeta in H; apply rbind_ok in H; destruct H as ([[o1 pr1] r1] & H1 & H);
    (assert (S1 : qcap o1 = qcap o) by (destruct sd; split_all; first [eapply new_bid_cap; eassumption | eapply new_ask_cap; eassumption])).
  - injection H as <- <- <-. exact S1.
  - destruct r1 as [[q1 lk1]|]; [rewrite <- S1; eapply IH; exact H|]. injection H as <- <- <-. exact S1.
Qed.
Lemma lock_cap o oo ix bal o1 oo1 d l : lock_funds o oo ix bal = Ok (o1, oo1, d, l) -> qcap o1 = qcap o.
Proof. unfold lock_funds. intros H. cbv zeta in H. destruct (oi_side ix); split_all; reflexivity. Qed.
Lemma order_core_cap o rq oo k t ix bal now o' rq' oo' d : new_order_core o rq oo k t ix bal now = Ok (o', rq', oo', d) -> qcap o' = qcap o.
Proof.
  unfold new_order_core. intros H. do 3 peel H. destruct v1 as [[[o1 oo1] dep] lk]. destruct (gen_order_id (snd rq) (oi_price ix) (oi_side ix)) as [id sq].
  peel H. destruct v1 as [oo2 slot]. peel H. cbv zeta in H. peel H. destruct v2 as [[o2 pr] rem]. peel H. peel H. injection H; intros; subst.
  rewrite (loop_cap _ _ _ _ _ _ _ _ _ _ _ E4). exact (lock_cap _ _ _ _ _ _ _ _ E1).
Qed.
Lemma take_core_cap o rq t ix o' rq' d w : send_take_core o rq t ix = Ok (o', rq', d, w) -> qcap o' = qcap o.
Proof.
  unfold send_take_core. intros H. destruct (gen_order_id (snd rq) (ti_price ix) (ti_side ix)) as [id sq]. cbv zeta in H.
  peel H. destruct v as [[o1 pr] rem]. peel H. apply loop_cap in E. rewrite <- E. destruct (ti_side ix); split_all; reflexivity.
Qed.
Lemma leaf_cap o l sd oo k id o' oo' : cancel_leaf_node o l sd oo k id = Ok (o', oo') -> qcap o' = qcap o.
Proof. unfold cancel_leaf_node. intros H. cbv zeta in H. do 7 peel H. injection H as <- <-. exact (emit_cap _ _ _ E5). Qed.
Lemma v2_cap o sd k oo id o' oo' : cancel_order_v2 o sd k oo id = Ok (o', oo') -> qcap o' = qcap o.
Proof. unfold cancel_order_v2. intros H. peel H. destruct v as [sl ol]. peel H. apply leaf_cap in H. rewrite orders_cap in H. exact H. Qed.
Lemma cid_cap o k oo c o' oo' : cancel_by_cid_core o k oo c = Ok (o', oo') -> qcap o' = qcap o.
Proof. unfold cancel_by_cid_core. intros H. peel H. peel H. destruct v0 as [[? ?] ?]. eapply v2_cap. exact H. Qed.
Lemma each_cap k ids : forall o oo o' oo', cancel_each o k oo ids = Ok (o', oo') -> qcap o' = qcap o.
Proof.
  induction ids as [|[id sd] r IH]; intros * H; cbn [cancel_each] in H; [injection H as <- <-; reflexivity|].
  destruct (cancel_order_v2 o sd k oo id) as [[o1 oo1]|er|] eqn:E; [| |discriminate].
  - apply v2_cap in E. rewrite <- E. eapply IH. exact H.
  - destruct er; try discriminate. eapply IH; exact H.
Qed.
Lemma cids_cap o k oo c o' oo' : cancel_by_cids_core o k oo c = Ok (o', oo') -> qcap o' = qcap o.
Proof. unfold cancel_by_cids_core. intros H. apply rbind_ok in H. destruct H as (ids & _ & H). exact (each_cap _ _ _ _ _ _ H). Qed.
Lemma leaves_cap sd k ls : forall o oo o' oo', cancel_leaves o oo sd k ls = Ok (o', oo') -> qcap o' = qcap o.
Proof.
  induction ls as [|l r IH]; intros * H; cbn [cancel_leaves] in H; [injection H as <- <-; reflexivity|].
  peel H. peel H. destruct v0 as [o1 oo1]. apply leaf_cap in E0. rewrite <- E0. eapply IH. exact H.
Qed.
Lemma prune_cap o oo k n o' oo' : prune_core o oo k n = Ok (o', oo') -> qcap o' = qcap o.
Proof.
  unfold prune_core. intros H. peel H. destruct v as [[o1 bl] al]. peel H. destruct v as [o2 oo2]. apply leaves_cap in E0, H. rewrite H, E0.
  unfold remove_all in E. destruct (find_by (ob_asks o) (Z.to_nat n) _) as [aks l1]. destruct (find_by (ob_bids o) l1 _) as [bks l2].
  peel E. destruct v. peel E. destruct v. injection E as <- _ _. reflexivity.
Qed.

(** ** On the store *)
Record kept (s s' : store) : Prop := mkKept {
  kp_len : forall x, a_len (sget s' x) = a_len (sget s x);
  kp_prog : forall x, a_prog (sget s' x) = a_prog (sget s x);
  kp_lam : forall x, a_lamports (sget s' x) = a_lamports (sget s x);
  kp_q : forall x q', a_data (sget s' x) = DEventQ q' -> exists q, a_data (sget s x) = DEventQ q /\ zlen (q_buf q') = zlen (q_buf q) }.
Lemma kept_refl s : kept s s. Proof. constructor; eauto. Qed.
Lemma kept_trans a b c : kept a b -> kept b c -> kept a c.
Proof.
  intros [l1 p1 m1 q1] [l2 p2 m2 q2]. constructor; [congruence..|]. intros x q H. destruct (q2 x q H) as (q' & H' & E'). destruct (q1 x q' H') as (q'' & H'' & E''). exists q''. split; [exact H''|congruence].
Qed.
Lemma kept_put s k d : (forall q', d = DEventQ q' -> exists q, a_data (sget s k) = DEventQ q /\ zlen (q_buf q') = zlen (q_buf q)) -> kept s (put_data s k d).
Proof.
  intros H. constructor; intros; [apply put_len|apply put_prog|apply put_lam|]. rewrite put_data_eq in H0. destruct (Z.eqb_spec x k) as [->|]; [auto|eauto].
Qed.
Lemma kept_plain s k d : (forall q, d <> DEventQ q) -> kept s (put_data s k d).
Proof. intros N. apply kept_put. intros q E. destruct (N q E). Qed.
Lemma transfer_kept s a b c g x s' : spl_transfer s a b c g x = Ok s' -> kept s s'.
Proof.
  unfold spl_transfer. intros H. do 9 peel H. destruct (a =? b); [injection H as <-; apply kept_refl|]. peel H. injection H as <-.
  eapply kept_trans; [|apply kept_plain; discriminate]; apply kept_plain; discriminate.
Qed.
Lemma in_kept s h a b c x s' : transfer_in s h a b c x = Ok s' -> kept s s'.
Proof. unfold transfer_in. destruct (x =? 0); [intros [= <-]; apply kept_refl|]. intros H. do 5 peel H. injection H as <-. eapply transfer_kept. exact E1. Qed.
Lemma out_kept s a b c x s' : send_from_vault s a b c x = Ok s' -> kept s s'.
Proof. unfold send_from_vault. destruct (spl_transfer s a b c true x) eqn:E; try discriminate. intros [= <-]. eapply transfer_kept. exact E. Qed.
Lemma evq_data s m k q : load_event_q s m k = Ok q -> a_data (sget s k) = DEventQ q.
Proof. unfold load_event_q. intros H. peel H. destruct (a_data (sget s k)); try discriminate. injection H as ->. reflexivity. Qed.
(** Writing other data may hide the queue, but then it is not there to be found. *)
Lemma obs_kept s a b c k q o : a_data (sget s k) = DEventQ q -> qcap o = zlen (q_buf q) -> kept s (write_obs s a b c k o).
Proof.
  intros HQ HC. unfold write_obs. set (s3 := put_data (put_data (put_data s a _) b _) c _).
  assert (K : kept s s3) by (unfold s3; eapply kept_trans; [eapply kept_trans|]; apply kept_plain; discriminate).
  constructor; intros.
  - rewrite put_len. apply kp_len, K.
  - rewrite put_prog. apply kp_prog, K.
  - rewrite put_lam. apply kp_lam, K.
  - rewrite put_data_eq in H. destruct (Z.eqb_spec x k) as [->|]; [|eapply kp_q; eassumption]. injection H as <-. exists q. split; [exact HQ|exact HC].
Qed.

Section Sizes.
Variable e : env.
Hypothesis EO : env_ok e.
Notation D := (dexd e).
Ltac plainly := apply kept_plain; discriminate.
Lemma order_kept c s ix ms s' : proc_new_order e c s ix ms = Ok s' -> kept s s'.
Proof.
  intros H. unfold proc_new_order in H. do 12 (destruct ms as [|? ms]; try discriminate). do 16 peel H. destruct v14 as [[[o1 o2] o3] o4].
  apply in_kept in H. eapply kept_trans; [|exact H]. eapply kept_trans; [|plainly]. eapply kept_trans; [|plainly].
  eapply obs_kept; [eapply evq_data; eassumption|]. apply order_core_cap in E14. exact E14.
Qed.
Lemma orders_kept c ms ixs : forall s s', proc_new_orders e c s ixs ms = Ok s' -> kept s s'.
Proof. induction ixs as [|ix r IH]; cbn [proc_new_orders]; intros s s' H; [injection H as <-; apply kept_refl|]. peel H. eapply kept_trans; [eapply order_kept; eassumption|eapply IH; exact H]. Qed.
Lemma cancel_kept s core ms s' : proc_cancel e s core ms = Ok s' -> (forall o x oo o' oo', core o x oo = Ok (o', oo') -> qcap o' = qcap o) -> kept s s'.
Proof.
  intros H C. unfold proc_cancel in H. do 6 (destruct ms as [|? ms]; try discriminate). do 7 peel H. destruct v5 as [o1 o2]. injection H as <-.
  eapply kept_trans; [|plainly]. eapply obs_kept; [eapply evq_data; eassumption|]. apply C in E5. exact E5.
Qed.
Lemma cids_kept s cids ms s' : proc_cancel_cids e s cids ms = Ok s' -> kept s s'.
Proof. intros H. unfold proc_cancel_cids in H. apply cancel_kept in H; [exact H|]. intros o x oo o' oo'. apply cids_cap. Qed.
Lemma cloop_kept m oos n : forall s q s' q', consume_loop e s m q oos n = Ok (s', q') -> kept s s' /\ zlen (q_buf q') = zlen (q_buf q).
Proof.
  induction n as [|n IH]; intros s q s' q' H; cbn [consume_loop] in H; [injection H as <- <-; split; [apply kept_refl|reflexivity]|]. peel H. destruct v as [ev|]; [|injection H as <- <-; split; [apply kept_refl|reflexivity]].
  peel H. destruct (binary_search _ _); [|injection H as <- <-; split; [apply kept_refl|reflexivity]]. do 4 peel H. apply IH in H. destruct H as [K1 K2].
  split; [eapply kept_trans; [|exact K1]; plainly|]. rewrite K2. unfold pop_front in E3. destruct (q_empty q); [injection E3 as <-; discriminate|]. peel E3. peel E3. injection E3 as <-. injection E4 as <-. reflexivity.
Qed.
Lemma consume_kept s m q oos n s' : consume_with e s m q oos n = Ok s' -> kept s s'.
Proof.
  intros H. unfold consume_with in H. do 2 peel H. destruct v0 as [s1 q1]. injection H as <-. apply evq_data in E. apply cloop_kept in E0. destruct E0 as [K1 K2].
  constructor; intros; [rewrite put_len; apply kp_len, K1|rewrite put_prog; apply kp_prog, K1|rewrite put_lam; apply kp_lam, K1|]. rewrite put_data_eq in H. destruct (Z.eqb_spec x q) as [->|]; [|eapply kp_q; eassumption]. injection H as <-. eauto.
Qed.
Lemma replace_kept c s ixs ms s' : proc_replace e c s ixs ms = Ok s' -> kept s s'.
Proof. intros H. unfold proc_replace in H. peel H. peel H. eapply kept_trans; [eapply cids_kept; eassumption|eapply orders_kept; exact H]. Qed.
Theorem process_kept c s i ms s' : process e c s i ms = Ok s' -> (forall ix, i <> IInitMarket ix) -> i <> ICloseOO -> kept s s'.
Proof.
  intros H NI NC. destruct i; cbn [process] in H; try discriminate.
  - destruct (NI ix eq_refl).
  - injection H as <-. apply kept_refl.
  - unfold proc_consume in H. destruct (rev ms) as [|? [|? [|? [|? [|? ?]]]]]; try discriminate. do 2 peel H. eapply consume_kept; eassumption.
  - unfold proc_settle in H. do 9 (destruct ms as [|? ms]; try discriminate). do 11 peel H. destruct v9 as [[[[m' oo'] ca] pa] rb]. cbv zeta in H. do 2 peel H.
    match goal with H1 : send_from_vault ?s1 _ _ _ ca = Ok ?s2, H2 : send_from_vault ?s2 _ _ _ pa = Ok ?s3 |- _ => assert (K3 : kept s s3) by (eapply kept_trans; [|exact (out_kept _ _ _ _ _ _ H2)]; eapply kept_trans; [|exact (out_kept _ _ _ _ _ _ H1)]; eapply kept_trans; [|plainly]; plainly) end.
    destruct v6, rb; try (injection H as <-; exact K3). eapply kept_trans; [exact K3|eapply out_kept; eassumption].
  - unfold proc_disable in H. destruct ms as [|? [|? [|? ?]]]; try discriminate. do 3 peel H. injection H as <-. plainly.
  - unfold proc_sweep in H. destruct ms as [|? [|? [|? [|? [|? [|? [|? ?]]]]]]]; try discriminate. do 7 peel H. eapply kept_trans; [|eapply out_kept; exact H]. plainly.
  - eapply order_kept; eassumption.
  - eapply cancel_kept; [exact H|]. cbv beta. intros *. apply v2_cap.
  - unfold proc_cancel_cid in H. peel H. eapply cancel_kept; [exact H|]. cbv beta. intros *. apply cid_cap.
  - unfold proc_send_take in H. do 12 (destruct ms as [|? ms]; try discriminate). do 15 peel H. destruct v13 as [[[o1 o2] o3] o4]. cbv zeta in H.
    assert (K1 : kept s (put_data (write_obs s (mk m) (mk m2) (mk m3) (mk m1) o1) (mk m0) (DReqQ o2))).
    { eapply kept_trans; [|plainly]. eapply obs_kept; [eapply evq_data; eassumption|]. apply take_core_cap in E13. exact E13. }
    destruct (ti_side ix); peel H; (assert (K2 : kept s v13) by (eapply kept_trans; [exact K1|eapply in_kept; eassumption])); (destruct (o4 =? 0); [injection H as <-; exact K2|eapply kept_trans; [exact K2|eapply out_kept; eassumption]]).
  - destruct (NC eq_refl).
  - unfold proc_init_oo in H. do 4 (destruct ms as [|? ms]; try discriminate). do 4 peel H. injection H as <-. plainly.
  - unfold proc_prune in H. destruct ms as [|? [|? [|? [|? [|? [|? [|? [|? ?]]]]]]]]; try discriminate. do 8 peel H. destruct v6 as [o1 o2]. injection H as <-.
    eapply kept_trans; [|plainly]. eapply obs_kept; [eapply evq_data; eassumption|]. apply prune_cap in E6. exact E6.
  - unfold proc_consume_perm in H. destruct (rev ms) as [|? [|? [|? [|? ?]]]]; try discriminate. do 3 peel H. eapply consume_kept; eassumption.
  - eapply cids_kept; eassumption.
  - eapply replace_kept; eassumption.
  - eapply replace_kept; eassumption.
Qed.
(** Lengths never change, whatever the instruction. *)
Theorem process_len c s i ms s' : process e c s i ms = Ok s' -> forall x, a_len (sget s' x) = a_len (sget s x).
Proof.
  intros H x. destruct (match i with IInitMarket _ | ICloseOO => true | _ => false end) eqn:B; [|apply kp_len; eapply process_kept; [exact H| |]; intros; intros ->; discriminate].
  destruct i; try discriminate; cbn [process] in H.
  - unfold proc_init_market in H. destruct (map mk ms) as [|? [|? [|? [|? [|? [|? [|? [|? [|? [|? auths]]]]]]]]]]; try discriminate.
    do 12 peel H. cbv zeta in H. injection H as <-. rewrite !put_len. reflexivity.
  - unfold proc_close in H. destruct ms as [|? [|? [|? [|? [|? ?]]]]]; try discriminate. do 4 peel H. cbv zeta in H. do 2 peel H. injection H as <-. rewrite put_len, !len_lam. reflexivity.
Qed.
Lemma process_sized c s i ms s' : process e c s i ms = Ok s' -> sized s -> sized s'.
Proof. intros H S x. rewrite (process_len _ _ _ _ _ H). apply S. Qed.
(** Event queues of markets have at least 128 places. *)
Definition roomy (s : store) : Prop := forall x q, D s x = Some (DEventQ q) -> 128 <= zlen (q_buf q).
Lemma kept_roomy s s' : kept s s' -> roomy s -> roomy s'.
Proof.
  intros K R x q H. apply dexd_owned in H. destruct H as [H1 H2]. destruct (kp_q _ _ K x q H2) as (q0 & H0 & E). rewrite E. apply (R x). unfold dexd. rewrite <- (kp_prog _ _ K), H1, Z.eqb_refl, H0. reflexivity.
Qed.
Lemma slots_len n : 0 <= n -> zlen (repeat blank_event (Z.to_nat n)) = n.
Proof. intros. unfold zlen. rewrite repeat_length. lia. Qed.
Lemma process_roomy c s i ms s' : process e c s i ms = Ok s' -> roomy s -> roomy s'.
Proof.
  intros H R. destruct (match i with IInitMarket _ | ICloseOO => true | _ => false end) eqn:B; [|eapply kept_roomy; [eapply process_kept; [exact H| |]; intros; intros ->; discriminate|exact R]].
  destruct i; try discriminate; cbn [process] in H; intros x q HX.
  - unfold proc_init_market in H. destruct (map mk ms) as [|? [|? [|? [|? [|? [|? [|? [|? [|? [|? auths]]]]]]]]]]; try discriminate.
    do 12 peel H. cbv zeta in H. injection H as <-. apply dexd_owned in HX. destruct HX as [P HX]. rewrite !put_prog in P. rewrite !put_data_eq in HX.
    repeat match type of HX with (if ?b then _ else _) = _ => destruct b; [try discriminate|] end.
    + injection HX as <-. cbn [q_buf]. repeat match goal with HH : check _ _ = Ok _ |- _ => apply check_ok in HH end. rewrite slots_len; lia.
    + apply (R x). unfold dexd. rewrite P, Z.eqb_refl, HX. reflexivity.
  - unfold proc_close in H. destruct ms as [|? [|? [|? [|? [|? ?]]]]]; try discriminate. do 4 peel H. cbv zeta in H. do 2 peel H. injection H as <-.
    rewrite dexd_put, !dexd_lam in HX. destruct (x =? mk m); [match type of HX with (if ?b then _ else _) = _ => destruct b end; discriminate|]. exact (R x q HX).
Qed.
Lemma history_roomy s : history e s -> roomy s.
Proof.
  induction 1 as [s G|s c b ms H IH G SZ HB LG|s s' H IH R].
  - intros x q HX. apply (ge_blank _ _ G) in HX. discriminate.
  - unfold transact. destruct (process_bytes e c s b ms) as [s'|?|] eqn:E; [|exact IH|exact IH]. unfold process_bytes in E. apply rbind_ok in E. destruct E as (i & U & E). eapply process_roomy; eassumption.
  - intros x q HX. eapply IH. eapply rely_was; [exact R|exact HX|discriminate].
Qed.
(** An open-orders account never belongs to a derived address: its owner signed for it. *)
Lemma history_owner s : history e s -> forall x oo, D s x = Some (DOO oo) -> ~ is_pda e (oo_owner oo).
Proof.
  induction 1 as [s G|s c b ms H IH G SZ HB LG|s s' H IH R]; intros x oo HX.
  - apply (ge_blank _ _ G) in HX. discriminate.
  - unfold transact in HX. destruct (process_bytes e c s b ms) as [s'|?|] eqn:E; [|exact (IH x oo HX)|exact (IH x oo HX)]. unfold process_bytes in E. apply rbind_ok in E. destruct E as (i & U & E).
    pose proof (history_anytime e s H) as AT.
    assert (C : (exists o, D s x = Some (DOO o)) \/ forall o, D s x <> Some (DOO o)) by (destruct (D s x) as [[]|]; try (right; discriminate); left; eauto).
    destruct C as [(o & HO)|NO].
    + destruct (account_kept e EO s c i ms s' x o AT E HO) as (o' & HO' & OW & _). rewrite HX in HO'. injection HO' as <-. rewrite OW. exact (IH x o HO).
    + destruct (opening e EO s c i ms s' x oo AT E HX NO) as (_ & _ & (a & IA & EA & SA) & _). rewrite <- EA. exact (LG a IA SA).
  - apply (IH x). eapply rely_was; [exact R|exact HX|discriminate].
Qed.
(** A transaction that succeeds carries the history on. *)
Lemma history_next c s i ms s' : history e s -> no_overflow e s -> sized s -> legal e ms -> wf_instr i -> process e c s i ms = Ok s' -> history e s'.
Proof.
  intros H G SZ LG WF E. assert (T : transact e c s (pack i) ms = s'). { unfold transact, process_bytes. rewrite (pack_unpack i WF). cbn [ok_or rbind]. rewrite E. reflexivity. }
  rewrite <- T. apply reach_tx; auto. apply pack_bytes.
Qed.
End Sizes.
