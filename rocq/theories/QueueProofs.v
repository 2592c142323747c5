(** The ring buffer refines a list. *)
From Verif Require Import Base BaseProofs Queue QueueSpec.

Lemma nth_error_ext {A} (a b : list A) : (forall i, nth_error a i = nth_error b i) -> a = b.
Proof.
  revert b. induction a as [|x a IH]; intros b H.
  - destruct b; [reflexivity|]. specialize (H 0%nat). discriminate.
  - destruct b as [|y b]; [specialize (H 0%nat); discriminate|].
    pose proof (H 0%nat) as H0. cbn in H0. inversion H0; subst. f_equal. apply IH. intros i. apply (H (S i)).
Qed.
Lemma nth_error_skipn' {A} n (l : list A) i : nth_error (skipn n l) i = nth_error l (n + i).
Proof. revert l. induction n; intros l; cbn; [reflexivity|]. destruct l; cbn; [destruct i; reflexivity|apply IHn]. Qed.
Lemma nth_error_firstn' {A} n (l : list A) i : nth_error (firstn n l) i = if (i <? n)%nat then nth_error l i else None.
Proof.
  revert l i. induction n; intros l i; cbn [firstn].
  - destruct i; reflexivity.
  - destruct l as [|x l].
    + destruct i; cbn [nth_error]; destruct (_ <? _)%nat; reflexivity.
    + destruct i; cbn [nth_error]; [reflexivity|]. rewrite IHn. destruct (i <? n)%nat eqn:E1, (S i <? S n)%nat eqn:E2; auto;
        rewrite ?Nat.ltb_lt, ?Nat.ltb_ge in *; lia.
Qed.

Lemma mod_inj_range a b n : 0 < n -> b <= a < b + n -> a mod n = b mod n -> a = b.
Proof.
  intros Hn Hab E. pose proof (Z.div_mod a n ltac:(lia)). pose proof (Z.div_mod b n ltac:(lia)).
  assert (a - b = n * (a / n - b / n)) by lia.
  assert (a / n - b / n = 0 \/ 1 <= a / n - b / n \/ a / n - b / n <= -1) as [K|[K|K]] by lia; nia.
Qed.

Section Q.
Context {A : Type}.
Implicit Types q : queue A.

Record q_ok q : Prop := {
  qk_cap : zlen (q_buf q) < 9223372036854775808;
  qk_head : 0 <= q_head q /\ (q_head q < zlen (q_buf q) \/ q_head q = 0);
  qk_count : 0 <= q_count q <= zlen (q_buf q)
}.
(** Contents, oldest first. *)
Definition q_list q : list A :=
  firstn (Z.to_nat (q_count q)) (skipn (Z.to_nat (q_head q)) (q_buf q ++ q_buf q)).

Lemma q_list_nth q i : q_ok q ->
  nth_error (q_list q) i =
  if Z.of_nat i <? q_count q then znth (q_buf q) ((q_head q + Z.of_nat i) mod zlen (q_buf q)) else None.
Proof.
  intros [Hc Hh Hn]. unfold q_list. rewrite nth_error_firstn', nth_error_skipn'.
  destruct (Z.of_nat i <? q_count q) eqn:E.
  - replace (i <? Z.to_nat (q_count q))%nat with true by (symmetry; apply Nat.ltb_lt; lia).
    assert (0 < zlen (q_buf q)) by lia.
    destruct (Z_lt_le_dec (q_head q + Z.of_nat i) (zlen (q_buf q))) as [L|L].
    + rewrite Z.mod_small by lia. unfold zlen in *. rewrite nth_error_app1 by lia.
      unfold znth. replace (q_head q + Z.of_nat i <? 0) with false by lia. f_equal. lia.
    + replace ((q_head q + Z.of_nat i) mod zlen (q_buf q)) with (q_head q + Z.of_nat i - zlen (q_buf q)).
      2:{ apply (Z.mod_unique_pos _ _ 1); lia. }
      unfold zlen in *. rewrite nth_error_app2 by lia. unfold znth.
      replace (q_head q + Z.of_nat i - Z.of_nat (length (q_buf q)) <? 0) with false by lia. f_equal. lia.
  - replace (i <? Z.to_nat (q_count q))%nat with false by (symmetry; apply Nat.ltb_ge; lia). reflexivity.
Qed.

Lemma q_list_len q : q_ok q -> zlen (q_list q) = q_count q.
Proof.
  intros [Hc Hh Hn]. unfold q_list, zlen in *. rewrite firstn_length, skipn_length, app_length. lia.
Qed.

Lemma push_back_spec q v : q_ok q ->
  (push_back q v = Ok None /\ zlen (q_list q) = zlen (q_buf q)) \/
  (exists q', push_back q v = Ok (Some q') /\ zlen (q_list q) < zlen (q_buf q) /\ q_ok q' /\
     q_list q' = q_list q ++ [v] /\ zlen (q_buf q') = zlen (q_buf q) /\ q_seq q' = wadd (q_seq q) 1).
Proof.
  intros Q. pose proof (q_list_len q Q) as L. pose proof Q as [Hc Hh Hn]. unfold push_back, q_full.
  destruct (q_count q =? zlen (q_buf q)) eqn:E; [left; split; [reflexivity|lia]|]. right.
  unfold rem_len. rewrite !wadd_small by lia. replace (zlen (q_buf q) =? 0) with false by lia. cbn [rbind].
  set (slot := (q_head q + q_count q) mod zlen (q_buf q)).
  assert (Hs : 0 <= slot < zlen (q_buf q)) by (apply Z.mod_pos_bound; lia).
  destruct (znth_lt _ _ Hs) as [x Hx]. rewrite Hx. cbn [unwrap rbind].
  eexists. split; [reflexivity|]. split; [lia|].
  match goal with |- q_ok ?q' /\ _ => assert (Q' : q_ok q') by (constructor; cbn; rewrite zupd_len; lia) end.
  split; [assumption|]. split; [|split; [cbn; apply zupd_len|reflexivity]].
  apply nth_error_ext. intros i. rewrite (q_list_nth _ _ Q'). cbn [q_head q_count q_buf]. rewrite zupd_len.
  destruct (Z.of_nat i <? q_count q) eqn:Ei.
  - replace (Z.of_nat i <? q_count q + 1) with true by lia.
    rewrite nth_error_app1 by (unfold zlen in L; lia). rewrite (q_list_nth _ _ Q), Ei.
    apply znth_zupd_other. unfold slot. intros F.
    pose proof (mod_inj_range (q_head q + q_count q) (q_head q + Z.of_nat i) (zlen (q_buf q)) ltac:(lia) ltac:(lia) F). lia.
  - rewrite nth_error_app2 by (unfold zlen in L; lia).
    destruct (Z.of_nat i <? q_count q + 1) eqn:Ei'.
    + assert (Z.of_nat i = q_count q) by lia. replace (i - length (q_list q))%nat with 0%nat by (unfold zlen in L; lia).
      cbn [nth_error]. rewrite H. apply znth_zupd_same. assumption.
    + replace (nth_error [v] (i - length (q_list q))) with (@None A); [reflexivity|].
      symmetry. apply nth_error_None. cbn. unfold zlen in L. lia.
Qed.

Lemma pop_front_spec q : q_ok q ->
  match q_list q with
  | [] => pop_front q = Ok None /\ peek_front q = Ok None
  | x :: r => peek_front q = Ok (Some x) /\
      exists q', pop_front q = Ok (Some (q', x)) /\ q_ok q' /\ q_list q' = r /\
                 zlen (q_buf q') = zlen (q_buf q) /\ q_seq q' = q_seq q
  end.
Proof.
  intros Q. pose proof (q_list_len q Q) as L. pose proof Q as [Hc Hh Hn].
  unfold pop_front, peek_front, q_empty. destruct (q_list q) as [|x r] eqn:EL.
  - rewrite zlen_nil in L. rewrite <- L. auto.
  - rewrite zlen_cons in L. pose proof (zlen_nonneg r). replace (q_count q =? 0) with false by lia.
    pose proof (q_list_nth q 0 Q) as N0. rewrite EL in N0. cbn [nth_error] in N0.
    replace (Z.of_nat 0 <? q_count q) with true in N0 by lia. rewrite Z.add_0_r, Z.mod_small in N0 by lia.
    rewrite <- N0. cbn [unwrap rbind]. split; [reflexivity|]. unfold rem_len.
    replace (zlen (q_buf q) =? 0) with false by lia. cbn [rbind]. rewrite wadd_small, wsub_small by lia.
    eexists. split; [reflexivity|].
    match goal with |- q_ok ?q' /\ _ => assert (Q' : q_ok q') end.
    { constructor; cbn; try lia. pose proof (Z.mod_pos_bound (q_head q + 1) (zlen (q_buf q)) ltac:(lia)). lia. }
    split; [assumption|]. split; [|split; reflexivity].
    apply nth_error_ext. intros i. rewrite (q_list_nth _ _ Q'). cbn [q_head q_count q_buf].
    change (nth_error r i) with (nth_error (x :: r) (S i)). rewrite <- EL, (q_list_nth _ _ Q).
    replace (Z.of_nat (S i) <? q_count q) with (Z.of_nat i <? q_count q - 1) by lia.
    rewrite Z.add_mod_idemp_l by lia. replace (q_head q + 1 + Z.of_nat i) with (q_head q + Z.of_nat (S i)) by lia.
    reflexivity.
Qed.

Lemma revert_spec q n : q_ok q -> 0 <= n ->
  if n <=? zlen (q_list q) then
    exists q', revert_pushes q n = Ok q' /\ q_ok q' /\ q_list q' = firstn (Z.to_nat n) (q_list q) /\
               zlen (q_buf q') = zlen (q_buf q)
  else revert_pushes q n = Err EAssert.
Proof.
  intros Q Hn. pose proof (q_list_len q Q) as L. pose proof Q as [Hc Hh Hk]. rewrite L. unfold revert_pushes, check.
  destruct (n <=? q_count q) eqn:E; [|reflexivity]. cbn [rbind]. eexists. split; [reflexivity|].
  match goal with |- q_ok ?q' /\ _ => assert (Q' : q_ok q') by (constructor; cbn; lia) end.
  split; [assumption|]. split; [|reflexivity].
  apply nth_error_ext. intros i. rewrite nth_error_firstn', (q_list_nth _ _ Q'), (q_list_nth _ _ Q).
  cbn [q_head q_count q_buf].
  destruct (i <? Z.to_nat n)%nat eqn:F; [apply Nat.ltb_lt in F|apply Nat.ltb_ge in F].
  - replace (Z.of_nat i <? n) with true by lia. replace (Z.of_nat i <? q_count q) with true by lia. reflexivity.
  - replace (Z.of_nat i <? n) with false by lia. reflexivity.
Qed.

Lemma skipn_nth_cons {B} (l : list B) i x : nth_error l i = Some x -> skipn i l = x :: skipn (S i) l.
Proof.
  revert l. induction i; intros l H; destruct l; try discriminate; cbn in *; [congruence|].
  rewrite (IHi _ H). reflexivity.
Qed.
Lemma iter_spec q : q_ok q -> q_iter q = Ok (q_list q).
Proof.
  intros Q. pose proof (q_list_len q Q) as L. pose proof Q as [Hc Hh Hk]. unfold q_iter.
  assert (G : forall fuel i, Z.of_nat fuel + Z.of_nat i = q_count q ->
             iter_from fuel q (Z.of_nat i) = Ok (skipn i (q_list q))).
  { induction fuel as [|f IH]; intros i Hi; cbn [iter_from].
    - rewrite skipn_all2; [reflexivity|]. unfold zlen in L. lia.
    - replace (Z.of_nat i =? q_count q) with false by lia. unfold rem_len.
      replace (zlen (q_buf q) =? 0) with false by lia. rewrite wadd_small by lia. cbn [rbind].
      pose proof (q_list_nth q i Q) as N0. replace (Z.of_nat i <? q_count q) with true in N0 by lia.
      assert (Hl : (i < length (q_list q))%nat) by (unfold zlen in L; lia).
      apply nth_error_Some in Hl. destruct (nth_error (q_list q) i) as [x|] eqn:Ex; [|congruence].
      rewrite <- N0. cbn [unwrap rbind]. replace (Z.of_nat i + 1) with (Z.of_nat (S i)) by lia.
      rewrite IH by lia. cbn [rbind]. rewrite (skipn_nth_cons _ _ _ Ex). reflexivity. }
  apply (G _ 0%nat). lia.
Qed.

Lemma blank_ok (buf : list A) : zlen buf < 9223372036854775808 -> q_ok (q_blank buf) /\ q_list (q_blank buf) = [].
Proof.
  intros H. split; [|reflexivity]. constructor; cbn; [assumption|lia|]. pose proof (zlen_nonneg buf). lia.
Qed.

Lemma qstep_refines q o : q_ok q -> qop_ok o ->
  exists q', qstep q o = Ok (q', snd (lstep (zlen (q_buf q)) (q_list q) o)) /\ q_ok q' /\
    q_list q' = fst (lstep (zlen (q_buf q)) (q_list q) o) /\ zlen (q_buf q') = zlen (q_buf q).
Proof.
  intros Q Ho. destruct o as [v| | |n|]; cbn [qstep lstep].
  - destruct (push_back_spec q v Q) as [[E1 E2]|(q' & E1 & E2 & E3 & E4 & E5 & E6)]; rewrite E1; cbn [rbind].
    + exists q. replace (zlen (q_list q) <? zlen (q_buf q)) with false by lia. auto.
    + exists q'. replace (zlen (q_list q) <? zlen (q_buf q)) with true by lia. auto.
  - pose proof (pop_front_spec q Q) as P. destruct (q_list q) as [|x r] eqn:EL.
    + destruct P as [-> _]. cbn [rbind]. exists q. rewrite EL. auto.
    + destruct P as (_ & q' & E1 & E2 & E3 & E4 & E5). rewrite E1. cbn [rbind]. exists q'. auto.
  - pose proof (pop_front_spec q Q) as P. exists q. destruct (q_list q) as [|x r] eqn:EL.
    + destruct P as [_ ->]. cbn [rbind]. auto.
    + destruct P as (-> & _). cbn [rbind]. auto.
  - pose proof (revert_spec q n Q Ho) as P. destruct (n <=? zlen (q_list q)).
    + destruct P as (q' & E1 & E2 & E3 & E4). rewrite E1. exists q'. auto.
    + rewrite P. exists q. auto.
  - rewrite (iter_spec q Q). cbn [rbind]. exists q. auto.
Qed.

Lemma qrun_refines ops : forall q, q_ok q -> Forall qop_ok ops ->
  exists q', qrun q ops = Ok (q', snd (lrun (zlen (q_buf q)) (q_list q) ops)) /\ q_ok q' /\
    q_list q' = fst (lrun (zlen (q_buf q)) (q_list q) ops).
Proof.
  induction ops as [|o ops IH]; intros q Q Ho; cbn [qrun lrun]; [exists q; auto|].
  inversion Ho as [|? ? H1 H2]; subst. destruct (qstep_refines q o Q H1) as (q1 & E1 & E2 & E3 & E4).
  rewrite E1. cbn [rbind]. destruct (lstep (zlen (q_buf q)) (q_list q) o) as [l1 x]. cbn [fst snd] in *.
  destruct (IH q1 E2 H2) as (q2 & F1 & F2 & F3). rewrite F1. cbn [rbind]. rewrite E3, E4 in *.
  destruct (lrun (zlen (q_buf q)) l1 ops) as [l2 xs]. cbn [fst snd] in *. exists q2. auto.
Qed.

Lemma qstep_seq q o q' out : q_ok q -> qop_ok o -> qstep q o = Ok (q', out) ->
  w64 (q_seq q' - zlen (q_list q')) = w64 (q_seq q - zlen (q_list q) + popped [o] [out]).
Proof.
  intros Q Ho H. pose proof (q_list_len q Q) as L. pose proof Q as [Hc Hh Hk].
  destruct (qstep_refines q o Q Ho) as (q1 & E1 & E2 & E3 & _). rewrite H in E1. injection E1 as <- EO.
  pose proof (q_list_len q' E2) as L'. unfold w64.
  destruct o as [v| | |n|]; cbn [qstep] in H; cbn [popped].
  - unfold push_back in H. destruct (q_full q).
    + cbn [rbind] in H. injection H as <- _. f_equal. lia.
    + unfold rem_len in H. destruct (zlen (q_buf q) =? 0); [discriminate|]. cbn [rbind] in H.
      destruct (znth _ _); [|discriminate]. cbn [unwrap rbind] in H. injection H as <- _.
      rewrite L', L. cbn [q_seq q_count]. unfold wadd, w64. rewrite (Z.mod_small (q_count q + 1)) by lia.
      rewrite Zminus_mod_idemp_l. f_equal. lia.
  - unfold pop_front in H. destruct (q_empty q) eqn:EM.
    + cbn [rbind] in H. injection H as <- <-. f_equal. lia.
    + destruct (znth _ _); [|discriminate]. cbn [unwrap rbind] in H.
      unfold rem_len in H. destruct (zlen (q_buf q) =? 0); [discriminate|]. cbn [rbind] in H. injection H as <- <-.
      rewrite L', L. cbn [q_seq q_count]. unfold q_empty in EM. unfold wsub, w64. rewrite (Z.mod_small (q_count q - 1)) by lia.
      f_equal. lia.
  - destruct (peek_front q); try discriminate. cbn [rbind] in H. injection H as <- _. f_equal. lia.
  - unfold revert_pushes in H. unfold check in H. destruct (n <=? q_count q) eqn:EN; cbn [rbind] in H.
    + injection H as <- _. rewrite L', L. cbn [q_seq q_count]. cbn [qop_ok] in Ho. unfold wsub, w64.
      rewrite (Z.mod_small (q_count q - n)) by lia. rewrite Zminus_mod_idemp_l. f_equal. lia.
    + injection H as <- _. f_equal. lia.
  - destruct (q_iter q); try discriminate. cbn [rbind] in H. injection H as <- _. f_equal. lia.
Qed.
Lemma popped_cons (o : @qop A) ops x xs : popped (o :: ops) (x :: xs) = popped [o] [x] + popped ops xs.
Proof. destruct o, x as [| |[?|]| | |]; cbn [popped]; lia. Qed.
Lemma qrun_seq ops : forall q q' outs, q_ok q -> Forall qop_ok ops -> qrun q ops = Ok (q', outs) ->
  w64 (q_seq q' - zlen (q_list q')) = w64 (q_seq q - zlen (q_list q) + popped ops outs).
Proof.
  induction ops as [|o ops IH]; intros q q' outs Q Ho H; cbn [qrun] in H.
  - injection H as <- <-. cbn [popped]. f_equal. lia.
  - inversion Ho as [|? ? H1 H2]; subst. destruct (qstep_refines q o Q H1) as (q1 & E1 & E2 & _).
    rewrite E1 in H. cbn [rbind] in H. destruct (qrun q1 ops) as [[q2 xs]| |] eqn:ER; try discriminate.
    cbn [rbind] in H. injection H as <- <-. rewrite popped_cons, (IH _ _ _ E2 H2 ER).
    pose proof (qstep_seq _ _ _ _ Q H1 E1) as S. unfold w64 in *.
    rewrite Z.add_assoc, <- Zplus_mod_idemp_l, S, Zplus_mod_idemp_l. reflexivity.
Qed.

Lemma fifo (buf : list A) ops : zlen buf < 9223372036854775808 -> Forall qop_ok ops ->
  exists q', qrun (q_blank buf) ops = Ok (q', snd (lrun (zlen buf) [] ops)) /\
             q_iter q' = Ok (fst (lrun (zlen buf) [] ops)) /\
             (q_seq q' - (popped ops (snd (lrun (zlen buf) [] ops)) + zlen (fst (lrun (zlen buf) [] ops)))) mod B64 = 0.
Proof.
  intros Hb Ho. destruct (blank_ok buf Hb) as [Q L].
  destruct (qrun_refines ops (q_blank buf) Q Ho) as (q' & E1 & E2 & E3).
  pose proof (qrun_seq _ _ _ _ Q Ho E1) as SQ. rewrite L in *. cbn [q_blank q_buf q_seq] in *. unfold w64 in SQ.
  exists q'. split; [assumption|]. rewrite iter_spec, E3 by assumption. split; [reflexivity|]. rewrite E3 in SQ.
  change (0 - zlen (@nil A)) with 0 in SQ.
  replace (q_seq q' - (popped ops (snd (lrun (zlen buf) [] ops)) + zlen (fst (lrun (zlen buf) [] ops)))) with
    (q_seq q' - zlen (fst (lrun (zlen buf) [] ops)) - popped ops (snd (lrun (zlen buf) [] ops))) by lia.
  rewrite <- Zminus_mod_idemp_l, SQ, Zminus_mod_idemp_l. rewrite Z.add_0_l, Z.sub_diag. reflexivity.
Qed.
End Q.

(** * Order ids *)
Lemma lor_disjoint a b : 0 <= a -> 0 <= b < B64 -> Z.lor (Z.shiftl a 64) b = a * B64 + b.
Proof.
  intros Ha Hb.
  assert (L : Z.land (Z.shiftl a 64) b = 0).
  { apply Z.bits_inj'. intros n Hn. rewrite Z.land_spec, Z.bits_0, Z.shiftl_spec by lia.
    destruct (Z_lt_le_dec n 64).
    - rewrite Z.testbit_neg_r by lia. reflexivity.
    - destruct (Z.eq_dec b 0) as [->|]; [rewrite Z.bits_0; apply andb_false_r|].
      rewrite (Z.bits_above_log2 b); [apply andb_false_r|lia|].
      assert (Z.log2 b < 64) by (apply Z.log2_lt_pow2; [lia|change (2^64) with B64; lia]). lia. }
  rewrite <- (Z.lxor_lor _ _ L), <- (Z.add_nocarry_lxor _ _ L), Z.shiftl_mul_pow2 by lia. reflexivity.
Qed.
Definition seq_part (sd : side) (seq : Z) : Z := match sd with Bid => B64 - 1 - seq | Ask => seq end.
Lemma gen_order_id_spec seq p sd : u64 seq -> u64 p ->
  gen_order_id seq p sd = (p * B64 + seq_part sd seq, wadd seq 1).
Proof.
  unfold u64. intros. unfold gen_order_id, gen_seq_num, wnot. f_equal. unfold seq_part.
  destruct sd; apply lor_disjoint; lia.
Qed.
