(** The event queue keeps its places (C88). *)
From Verif Require Import Base BaseProofs Fees ListSum Queue Codec Critbit Market Matching Core Instr InstrProofs Store Process StoreProofs.

Definition cap (o : obs) : Z := zlen (q_buf (ob_eq o)).
Lemma cap_orders o sd x : cap (set_orders o sd x) = cap o. Proof. destruct sd; reflexivity. Qed.
Lemma cap_mkt o m : cap (set_mkt o m) = cap o. Proof. reflexivity. Qed.
Lemma cap_qty o sd h l q : cap (write_qty o sd h l q) = cap o. Proof. apply cap_orders. Qed.
Lemma push_len {A} (q : queue A) v q' : push_back q v = Ok (Some q') -> zlen (q_buf q') = zlen (q_buf q).
Proof. unfold push_back. intros H. destruct (q_full q); [discriminate|]. do 2 (apply rbind_ok in H; destruct H as (? & _ & H)). injection H as <-. cbn [q_buf]. apply zupd_len. Qed.
Lemma emit_cap o v o' : emit o v = Ok o' -> cap o' = cap o.
Proof. unfold emit. intros H. apply rbind_ok in H. destruct H as ([q|] & P & H); [|discriminate]. injection H as <-. exact (push_len _ _ _ P). Qed.
Ltac exec := repeat match goal with
  | H : Ok _ = Ok _ |- _ => inversion H; clear H; subst
  | H : Err _ = Ok _ |- _ => discriminate H
  | H : Panic = Ok _ |- _ => discriminate H
  | H : rbind _ _ = Ok _ |- _ => apply rbind_ok in H; let x := fresh "x" in let P := fresh "P" in destruct H as (x & P & H)
  | H : emit _ _ = Ok _ |- _ => apply emit_cap in H
  | H : (let _ := _ in _) = Ok _ |- _ => cbv zeta in H
  | H : (match ?x with _ => _ end) = Ok _ |- _ => destruct x
  | H : (if ?x then _ else _) = Ok _ |- _ => destruct x
  end; rewrite ?cap_qty, ?cap_orders, ?cap_mkt in *.
Lemma remove_cap o sd k o' : remove_order_by_key o sd k = Ok o' -> cap o' = cap o.
Proof. unfold remove_order_by_key. intros H. exec. reflexivity. Qed.
Lemma post_cap o sd l o' : post_order o sd l = Ok o' -> cap o' = cap o.
Proof. unfold post_order. intros H. exec; congruence. Qed.
Ltac exec2 := repeat (progress (exec; repeat match goal with
  | H : remove_order_by_key _ _ _ = Ok _ |- _ => apply remove_cap in H
  | H : post_order _ _ _ = Ok _ |- _ => apply post_cap in H end)); rewrite ?cap_qty, ?cap_orders, ?cap_mkt in *.
Lemma ask_end_cap o pr p a b c d x y o' pr' r : ask_finish o pr p a b c d x y = Ok (o', pr', r) -> cap o' = cap o.
Proof. unfold ask_finish. intros H. cbv zeta in H. exec2; congruence. Qed.
Lemma bid_end_cap o pr p a b c d f g h x y o' pr' r : bid_finish o pr p a b c d f g h x y = Ok (o', pr', r) -> cap o' = cap o.
Proof. unfold bid_finish. intros H. cbv zeta in H. exec2; congruence. Qed.
Lemma ask_cap o pr p a b c o' pr' r : new_ask o pr p a b c = Ok (o', pr', r) -> cap o' = cap o.
Proof.
  unfold new_ask. intros H. cbv zeta in H. exec2; repeat match goal with H : ask_finish _ _ _ _ _ _ _ _ _ = Ok _ |- _ => apply ask_end_cap in H end; rewrite ?cap_qty, ?cap_orders, ?cap_mkt in *; unfold cap in *; cbn [ob_eq] in *; congruence.
Qed.
Lemma bid_cap o pr p a l b c o' pr' r : new_bid o pr p a l b c = Ok (o', pr', r) -> cap o' = cap o.
Proof.
  unfold new_bid. intros H. cbv zeta in H. exec2; repeat match goal with H : bid_finish _ _ _ _ _ _ _ _ _ _ _ _ = Ok _ |- _ => apply bid_end_cap in H end; rewrite ?cap_qty, ?cap_orders, ?cap_mkt in *; unfold cap in *; cbn [ob_eq] in *; congruence.
Qed.
Lemma loop_cap n : forall o pr p sd po a b o' pr' r, new_order_loop n o pr p sd po a b = Ok (o', pr', r) -> cap o' = cap o.
Proof.
  induction n as [|n IH]; intros o pr p sd po a b o' pr' r H; cbn [new_order_loop] in H; cbv zeta in H; apply rbind_ok in H; destruct H as ([[o1 pr1] r1] & P & H);
    (assert (C1 : cap o1 = cap o) by (clear H; destruct sd; exec; first [eapply bid_cap; eassumption|eapply ask_cap; eassumption])).
  - injection H as <- _ _. exact C1.
  - destruct r1 as [[q pc]|]; [|injection H as <- _ _; exact C1]. rewrite (IH _ _ _ _ _ _ _ _ _ _ H). exact C1.
Qed.
Lemma new_order_cap o sd ot id ow sl t q pc cid st n o' pr' r : new_order o sd ot id ow sl t q pc cid st n = Ok (o', pr', r) -> cap o' = cap o.
Proof. unfold new_order. apply loop_cap. Qed.
Lemma lock_cap o oo ix bal o' oo' d l : lock_funds o oo ix bal = Ok (o', oo', d, l) -> cap o' = cap o.
Proof. unfold lock_funds. intros H. cbv zeta in H. exec; reflexivity. Qed.
Lemma order_cap o rq oo a t ix bal now o' rq' oo' dep : new_order_core o rq oo a t ix bal now = Ok (o', rq', oo', dep) -> cap o' = cap o.
Proof.
  unfold new_order_core. intros H. do 2 (apply rbind_ok in H; destruct H as (? & _ & H)). apply rbind_ok in H. destruct H as ([[[o1 oo1] d1] l1] & P1 & H).
  destruct (gen_order_id (snd rq) (oi_price ix) (oi_side ix)) as [id sq]. apply rbind_ok in H. destruct H as ([oo2 slot] & _ & H). apply rbind_ok in H. destruct H as (? & _ & H). cbv zeta in H.
  apply rbind_ok in H. destruct H as ([[o2 pr] rem] & P2 & H). do 2 (apply rbind_ok in H; destruct H as (? & _ & H)). injection H as <- _ _ _. apply lock_cap in P1. apply new_order_cap in P2. congruence.
Qed.
Lemma take_cap o rq t ix o' rq' dep wd : send_take_core o rq t ix = Ok (o', rq', dep, wd) -> cap o' = cap o.
Proof.
  unfold send_take_core. intros H. destruct (gen_order_id (snd rq) (ti_price ix) (ti_side ix)) as [id sq]. cbv zeta in H. apply rbind_ok in H. destruct H as ([[o1 pr] rem] & P & H). apply new_order_cap in P.
  apply rbind_ok in H. destruct H as (? & _ & H). exec; exact P.
Qed.
Lemma leaf_cap o l sd oo a id o' oo' : cancel_leaf_node o l sd oo a id = Ok (o', oo') -> cap o' = cap o.
Proof. unfold cancel_leaf_node. intros H. cbv zeta in H. do 6 (apply rbind_ok in H; destruct H as (? & _ & H)). apply rbind_ok in H. destruct H as (o1 & P & H). injection H as <- _. exact (emit_cap _ _ _ P). Qed.
Lemma v2_cap o sd a oo id o' oo' : cancel_order_v2 o sd a oo id = Ok (o', oo') -> cap o' = cap o.
Proof.
  unfold cancel_order_v2. intros H. apply rbind_ok in H. destruct H as ([sl ol] & _ & H). apply rbind_ok in H. destruct H as (l & _ & H). apply leaf_cap in H. rewrite cap_orders in H. exact H.
Qed.
Lemma leaves_cap sd a ls : forall o oo o' oo', cancel_leaves o oo sd a ls = Ok (o', oo') -> cap o' = cap o.
Proof.
  induction ls as [|l r IH]; intros o oo o' oo' H; cbn [cancel_leaves] in H; [injection H as <- _; reflexivity|]. apply rbind_ok in H. destruct H as (id & _ & H). apply rbind_ok in H. destruct H as ([o1 oo1] & P & H).
  apply leaf_cap in P. rewrite (IH _ _ _ _ H). exact P.
Qed.
Lemma prune_cap o oo a n o' oo' : prune_core o oo a n = Ok (o', oo') -> cap o' = cap o.
Proof.
  unfold prune_core. intros H. apply rbind_ok in H. destruct H as ([[o1 bl] al] & P & H). apply rbind_ok in H. destruct H as ([o2 oo2] & P2 & H). apply leaves_cap in H. apply leaves_cap in P2.
  assert (cap o1 = cap o); [|congruence]. unfold remove_all in P. cbv zeta in P. destruct (find_by (ob_asks o) _ _). destruct (find_by (ob_bids o) _ _). exec. reflexivity.
Qed.
Lemma cid_cap o a oo cid o' oo' : cancel_by_cid_core o a oo cid = Ok (o', oo') -> cap o' = cap o.
Proof. unfold cancel_by_cid_core. intros H. apply rbind_ok in H. destruct H as (l & _ & H). apply rbind_ok in H. destruct H as ([[? id] sd] & _ & H). cbv beta iota in H. apply v2_cap in H. exact H. Qed.
Lemma each_cap a ids : forall o oo o' oo', cancel_each o a oo ids = Ok (o', oo') -> cap o' = cap o.
Proof.
  induction ids as [|[id sd] r IH]; intros o oo o' oo' H; cbn [cancel_each] in H; [injection H as <- _; reflexivity|]. destruct (cancel_order_v2 o sd a oo id) as [[o1 oo1]|er|] eqn:E; [| |discriminate].
  - apply v2_cap in E. rewrite (IH _ _ _ _ H). exact E.
  - destruct er; try discriminate. exact (IH _ _ _ _ H).
Qed.
Lemma cids_cap o a oo cids o' oo' : cancel_by_cids_core o a oo cids = Ok (o', oo') -> cap o' = cap o.
Proof. unfold cancel_by_cids_core. intros H. apply rbind_ok in H. destruct H as (l & _ & H). exact (each_cap _ _ _ _ _ _ H). Qed.
Lemma pop_len {A} (q : queue A) q' v : pop_front q = Ok (Some (q', v)) -> zlen (q_buf q') = zlen (q_buf q).
Proof. unfold pop_front. intros H. destruct (q_empty q); [discriminate|]. do 2 (apply rbind_ok in H; destruct H as (? & _ & H)). injection H as <- _. reflexivity. Qed.
