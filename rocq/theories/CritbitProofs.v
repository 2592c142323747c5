(** The slab of Critbit.v represents a crit-bit tree, which represents a sorted list. *)
From Verif Require Import Base BaseProofs Critbit CritbitBits.
Require Import Permutation Sorted.

(** * Crit-bit trees *)
Inductive tree :=
| TL (h : Z) (l : leaf)
| TN (h p k : Z) (a b : tree).

Definition th (t : tree) : Z := match t with TL h _ => h | TN h _ _ _ _ => h end.
Definition rehandle (t : tree) (h : Z) : tree :=
  match t with TL _ l => TL h l | TN _ p k a b => TN h p k a b end.
Fixpoint leaves (t : tree) : list leaf :=
  match t with TL _ l => [l] | TN _ _ _ a b => leaves a ++ leaves b end.
Fixpoint handles (t : tree) : list Z :=
  match t with TL h _ => [h] | TN h _ _ a b => h :: handles a ++ handles b end.
Fixpoint height (t : tree) : nat :=
  match t with TL _ _ => 1 | TN _ _ _ a b => S (Nat.max (height a) (height b)) end.
Definition contents (t : tree) : node :=
  match t with TL _ l => NLeaf l | TN _ p k a b => NInner p k (th a) (th b) end.

Fixpoint repr (ns : list node) (t : tree) : Prop :=
  znth ns (th t) = Some (contents t) /\
  match t with TL _ _ => True | TN _ _ _ a b => repr ns a /\ repr ns b end.

Fixpoint wft (lo : Z) (t : tree) : Prop :=
  match t with
  | TL _ l => lo < 128 /\ u128 (l_key l)
  | TN _ p k a b =>
      lo < p < 128 /\ u128 k /\
      (forall x, In x (leaves a) -> agree p k (l_key x) /\ kbit p (l_key x) = false) /\
      (forall x, In x (leaves b) -> agree p k (l_key x) /\ kbit p (l_key x) = true) /\
      wft p a /\ wft p b
  end.

Lemma leaves_nonempty t : exists x, In x (leaves t).
Proof.
  induction t; cbn; eauto. destruct IHt1 as [x Hx]. exists x. apply in_or_app. auto.
Qed.
Lemma th_in t : In (th t) (handles t).
Proof. destruct t; cbn; auto. Qed.
Lemma th_rehandle t h : th (rehandle t h) = h.
Proof. destruct t; reflexivity. Qed.
Lemma leaves_rehandle t h : leaves (rehandle t h) = leaves t.
Proof. destruct t; reflexivity. Qed.
Lemma contents_rehandle t h : contents (rehandle t h) = contents t.
Proof. destruct t; reflexivity. Qed.
Lemma wft_rehandle lo t h : wft lo (rehandle t h) <-> wft lo t.
Proof. destruct t; reflexivity. Qed.

Lemma wft_u128 lo t : wft lo t -> forall x, In x (leaves t) -> u128 (l_key x).
Proof.
  revert lo. induction t; cbn [wft leaves]; intros lo H x Hx.
  - destruct Hx as [->|[]]. tauto.
  - apply in_app_or in Hx. destruct H as (?&?&?&?&?&?). destruct Hx; eauto.
Qed.

Lemma wft_lo lo lo' t : wft lo t -> lo' <= lo -> wft lo' t.
Proof. destruct t; cbn [wft]; intros; intuition lia. Qed.

Lemma wft_height lo t : -1 <= lo -> wft lo t -> Z.of_nat (height t) <= 128 - lo.
Proof.
  revert lo. induction t; cbn [wft height]; intros lo Hlo H; [lia|].
  destruct H as (?&?&?&?&Ha&Hb).
  specialize (IHt1 p ltac:(lia) Ha). specialize (IHt2 p ltac:(lia) Hb). lia.
Qed.

(** * Sorted lists of leaves *)
Definition klt (a b : leaf) : Prop := l_key a < l_key b.
Notation sorted := (StronglySorted klt).

Lemma sorted_app a b : sorted a -> sorted b ->
  (forall x y, In x a -> In y b -> klt x y) -> sorted (a ++ b).
Proof.
  induction a; cbn; intros Sa Sb H; [assumption|].
  inversion Sa; subst. constructor.
  - apply IHa; auto.
  - apply Forall_app. split; [assumption|]. apply Forall_forall. auto.
Qed.
Lemma sorted_app_inv a b : sorted (a ++ b) ->
  sorted a /\ sorted b /\ (forall x y, In x a -> In y b -> klt x y).
Proof.
  induction a; cbn; intros S.
  - split; [constructor|]. split; [assumption|]. intros x y [].
  - inversion S as [|? ? S' F]; subst. destruct (IHa S') as (Sa & Sb & H).
    apply Forall_app in F. destruct F as [F1 F2]. rewrite Forall_forall in F2.
    split; [constructor; assumption|]. split; [assumption|].
    intros x y [->|Hx] Hy; auto.
Qed.

Lemma wft_split lo h p k a b : wft lo (TN h p k a b) -> -1 <= lo ->
  forall x y, In x (leaves a) -> In y (leaves b) -> klt x y.
Proof.
  cbn [wft]. intros (?&?&Ha&Hb&?&?) Hlo x y Hx Hy. unfold klt.
  destruct (Ha x Hx), (Hb y Hy). apply (agree_lt p); [lia| |assumption|assumption].
  eapply agree_trans; [apply agree_sym|]; eassumption.
Qed.

Lemma leaves_sorted lo t : -1 <= lo -> wft lo t -> sorted (leaves t).
Proof.
  revert lo. induction t; intros lo Hlo H.
  - cbn. constructor; constructor.
  - pose proof (wft_split _ _ _ _ _ _ H Hlo) as Hs. cbn [wft] in H.
    destruct H as (?&?&?&?&Ha&Hb). cbn [leaves]. apply sorted_app; auto.
    + apply (IHt1 p); [lia|assumption].
    + apply (IHt2 p); [lia|assumption].
Qed.

(** List-level operations. *)
Fixpoint lins (x : leaf) (l : list leaf) : list leaf :=
  match l with
  | [] => [x]
  | y :: r => if l_key x <? l_key y then x :: y :: r
              else if l_key x =? l_key y then x :: r
              else y :: lins x r
  end.
Definition ldel (k : Z) (l : list leaf) : list leaf := filter (fun x => negb (l_key x =? k)) l.
Definition lfind (k : Z) (l : list leaf) : option leaf := find (fun x => l_key x =? k) l.

Lemma lins_app_r x a b : (forall y, In y a -> l_key y < l_key x) -> lins x (a ++ b) = a ++ lins x b.
Proof.
  induction a as [|y a IH]; cbn; intros H; [reflexivity|].
  pose proof (H y (or_introl eq_refl)).
  replace (l_key x <? l_key y) with false by lia. replace (l_key x =? l_key y) with false by lia.
  rewrite IH by auto. reflexivity.
Qed.
Lemma lins_app_l x a b : a <> [] -> (forall y, In y b -> l_key x < l_key y) -> lins x (a ++ b) = lins x a ++ b.
Proof.
  induction a as [|y a IH]; cbn; intros Hne H; [congruence|].
  destruct (l_key x <? l_key y) eqn:E1; [reflexivity|].
  destruct (l_key x =? l_key y) eqn:E2; [reflexivity|].
  cbn. f_equal. destruct a as [|z a].
  - cbn. destruct b as [|w b]; [reflexivity|]. cbn.
    replace (l_key x <? l_key w) with true; [reflexivity|].
    pose proof (H w (or_introl eq_refl)). lia.
  - apply IH; [discriminate|assumption].
Qed.
Lemma lins_below x a : (forall y, In y a -> l_key x < l_key y) -> lins x a = x :: a.
Proof.
  destruct a as [|y a]; cbn; intros H; [reflexivity|].
  pose proof (H y (or_introl eq_refl)). replace (l_key x <? l_key y) with true by lia. reflexivity.
Qed.
Lemma lins_above x a : (forall y, In y a -> l_key y < l_key x) -> lins x a = a ++ [x].
Proof. intros. rewrite <- (app_nil_r a) at 1. apply lins_app_r. assumption. Qed.

Lemma lfind_app k a b : lfind k (a ++ b) = match lfind k a with Some x => Some x | None => lfind k b end.
Proof. unfold lfind. induction a; cbn; auto. destruct (l_key a =? k); auto. Qed.
Lemma lfind_None k l : lfind k l = None <-> forall x, In x l -> l_key x <> k.
Proof.
  unfold lfind. split.
  - intros H x Hx E. apply (find_none _ _ H) in Hx. lia.
  - intros H. induction l as [|y l IH]; cbn; auto.
    pose proof (H y (or_introl eq_refl)). replace (l_key y =? k) with false by lia.
    apply IH. intros. apply H. cbn; auto.
Qed.
Lemma lfind_Some k l x : lfind k l = Some x -> In x l /\ l_key x = k.
Proof. unfold lfind. intros H. apply find_some in H. split; [tauto|]. lia. Qed.
Lemma sorted_uniq l x y : sorted l -> In x l -> In y l -> l_key x = l_key y -> x = y.
Proof.
  induction 1 as [|z l S IH F]; intros Hx Hy E; [destruct Hx|].
  rewrite Forall_forall in F. unfold klt in F.
  destruct Hx as [->|Hx], Hy as [->|Hy]; auto.
  - specialize (F _ Hy). lia.
  - specialize (F _ Hx). lia.
Qed.
Lemma lfind_In k l x : sorted l -> In x l -> l_key x = k -> lfind k l = Some x.
Proof.
  intros S Hx E. destruct (lfind k l) eqn:F.
  - apply lfind_Some in F. f_equal. destruct F. eapply sorted_uniq; eauto. congruence.
  - rewrite lfind_None in F. exfalso. eapply F; eauto.
Qed.
Lemma ldel_none k l : (forall x, In x l -> l_key x <> k) -> ldel k l = l.
Proof.
  induction l as [|y l IH]; cbn; intros H; [reflexivity|].
  pose proof (H y (or_introl eq_refl)). replace (l_key y =? k) with false by lia. cbn.
  f_equal. auto.
Qed.
Lemma ldel_app k a b : ldel k (a ++ b) = ldel k a ++ ldel k b.
Proof. apply filter_app. Qed.

Lemma lins_In x l y : In y (lins x l) -> y = x \/ In y l.
Proof.
  induction l as [|z l IH]; cbn; [intuition|].
  destruct (l_key x <? l_key z); cbn; [intuition|].
  destruct (l_key x =? l_key z); cbn; intuition.
Qed.
Lemma lins_In_iff x l y : sorted l -> In y (lins x l) <-> y = x \/ (In y l /\ l_key y <> l_key x).
Proof.
  induction 1 as [|z l S IH F]; cbn.
  - intuition.
  - rewrite Forall_forall in F. unfold klt in F.
    destruct (l_key x <? l_key z) eqn:E1; [|destruct (l_key x =? l_key z) eqn:E2]; cbn.
    + split; [|intuition]. intros [->|[->|H]]; auto.
      * right. split; [auto|lia].
      * right. split; [auto|]. specialize (F _ H). lia.
    + split.
      * intros [->|H]; auto. right. split; [auto|]. specialize (F _ H). lia.
      * intros [->|[[->|H] Hn]]; auto. lia.
    + rewrite IH. split.
      * intros [->|[->|[H Hn]]]; auto. right. split; [auto|]. lia.
      * intros [->|[[->|H] Hn]]; auto.
Qed.
Lemma lins_sorted x l : sorted l -> sorted (lins x l).
Proof.
  induction 1 as [|z l S IH F]; cbn.
  - constructor; constructor.
  - rewrite Forall_forall in F. unfold klt in F.
    destruct (l_key x <? l_key z) eqn:E1; [|destruct (l_key x =? l_key z) eqn:E2].
    + constructor; [constructor; [assumption|rewrite Forall_forall; assumption]|].
      constructor; [unfold klt; lia|]. apply Forall_forall. intros y Hy. unfold klt.
      specialize (F _ Hy). lia.
    + constructor; [assumption|]. apply Forall_forall. intros y Hy. unfold klt.
      specialize (F _ Hy). lia.
    + constructor; [assumption|]. apply Forall_forall. intros y Hy. unfold klt.
      apply lins_In in Hy. destruct Hy as [->|Hy]; [lia|]. auto.
Qed.
Lemma filter_sorted p l : sorted l -> sorted (filter p l).
Proof.
  induction 1 as [|z l S IH F]; cbn; [constructor|].
  destruct (p z); [|assumption]. constructor; [assumption|].
  apply Forall_forall. intros y Hy. apply filter_In in Hy. rewrite Forall_forall in F. apply F. tauto.
Qed.
Lemma ldel_sorted k l : sorted l -> sorted (ldel k l).
Proof. apply filter_sorted. Qed.
Lemma ldel_In k l x : In x (ldel k l) <-> In x l /\ l_key x <> k.
Proof. unfold ldel. rewrite filter_In. intuition; lia. Qed.

(** * Tree operations *)
Definition mk_split (h : Z) (new : leaf) (hl hm : Z) (sh : Z) (t : tree) : tree :=
  if kbit sh (l_key new) then TN h sh (l_key new) (rehandle t hm) (TL hl new)
  else TN h sh (l_key new) (TL hl new) (rehandle t hm).

Fixpoint t_ins (t : tree) (new : leaf) (hl hm : Z) : tree :=
  match t with
  | TL h l => if l_key l =? l_key new then TL h new
              else mk_split h new hl hm (lzx (l_key l) (l_key new)) t
  | TN h p k a b =>
      if p <=? lzx k (l_key new) then
        if kbit p (l_key new) then TN h p k a (t_ins b new hl hm)
        else TN h p k (t_ins a new hl hm) b
      else mk_split h new hl hm (lzx k (l_key new)) t
  end.

(** What walking down by critical bits finds. *)
Fixpoint t_find (t : tree) (k : Z) : option leaf :=
  match t with
  | TL _ l => if l_key l =? k then Some l else None
  | TN _ p _ a b => if kbit p k then t_find b k else t_find a k
  end.

Lemma t_find_lfind lo t k : -1 <= lo -> wft lo t -> t_find t k = lfind k (leaves t).
Proof.
  revert lo. induction t as [h l|h p k0 a IHa b IHb]; intros lo Hlo H.
  - cbn. destruct (l_key l =? k); reflexivity.
  - cbn [wft] in H. destruct H as (Hp&Hk&Ha&Hb&Wa&Wb). cbn [t_find leaves].
    rewrite lfind_app. destruct (kbit p k) eqn:E.
    + rewrite (IHb p ltac:(lia) Wb).
      destruct (lfind k (leaves a)) eqn:F; [|reflexivity].
      apply lfind_Some in F. destruct F as [F1 F2]. destruct (Ha _ F1) as [_ F3].
      rewrite F2 in F3. congruence.
    + rewrite (IHa p ltac:(lia) Wa).
      destruct (lfind k (leaves a)) eqn:F; [reflexivity|].
      symmetry. apply lfind_None. intros x Hx E2. destruct (Hb _ Hx) as [_ F3]. congruence.
Qed.

(** Any key of the tree, inner or leaf, shares [lo+1] bits with the new key. *)
Definition near (lo : Z) (t : tree) (k : Z) : Prop :=
  forall x, In x (leaves t) -> agree (lo + 1) (l_key x) k.

Lemma near_inner lo h p k a b q : -1 <= lo -> wft lo (TN h p k a b) -> u128 q ->
  near lo (TN h p k a b) q -> agree (lo + 1) k q.
Proof.
  intros Hlo H Hq Hn. cbn [wft] in H. destruct H as (Hp&Hk&Ha&Hb&Wa&Wb).
  destruct (leaves_nonempty a) as [x Hx].
  apply agree_trans with (l_key x).
  - destruct (Ha x Hx). eapply agree_le; eauto; lia.
  - apply Hn. cbn [leaves]. apply in_or_app. auto.
Qed.

Lemma near_child_r lo h p k a b q : -1 <= lo -> wft lo (TN h p k a b) -> u128 q ->
  p <= lzx k q -> kbit p q = true -> near p b q.
Proof.
  intros Hlo H Hq Hl Hk x Hx. cbn [wft] in H. destruct H as (Hp&Hku&Ha&Hb&Wa&Wb).
  destruct (Hb x Hx). apply agree_S; [lia| |congruence].
  apply agree_trans with k; [apply agree_sym; assumption|].
  eapply agree_le; [apply lzx_agree; assumption|lia|]. pose proof (lzx_range k q Hku Hq). lia.
Qed.
Lemma near_child_l lo h p k a b q : -1 <= lo -> wft lo (TN h p k a b) -> u128 q ->
  p <= lzx k q -> kbit p q = false -> near p a q.
Proof.
  intros Hlo H Hq Hl Hk x Hx. cbn [wft] in H. destruct H as (Hp&Hku&Ha&Hb&Wa&Wb).
  destruct (Ha x Hx). apply agree_S; [lia| |congruence].
  apply agree_trans with k; [apply agree_sym; assumption|].
  eapply agree_le; [apply lzx_agree; assumption|lia|]. pose proof (lzx_range k q Hku Hq). lia.
Qed.

(** Splitting at the top of [t]: every leaf of [t] has the opposite bit [sh]. *)
Definition opp (sh : Z) (t : tree) (q : Z) : Prop :=
  forall x, In x (leaves t) -> agree sh q (l_key x) /\ kbit sh (l_key x) = negb (kbit sh q).

Lemma opp_leaf h l q : u128 (l_key l) -> u128 q -> l_key l <> q -> opp (lzx (l_key l) q) (TL h l) q.
Proof.
  intros Hl Hq Hne x [<-|[]].
  assert (lzx (l_key l) q < 128).
  { pose proof (lzx_range _ _ Hl Hq). pose proof (lzx_eq (l_key l) q). lia. }
  pose proof (lzx_bit _ _ Hl Hq H) as B.
  split; [apply agree_sym, lzx_agree; assumption|].
  destruct (kbit (lzx (l_key l) q) (l_key l)), (kbit (lzx (l_key l) q) q); cbn; congruence.
Qed.
Lemma opp_inner lo h p k a b q : -1 <= lo -> wft lo (TN h p k a b) -> u128 q ->
  lzx k q < p -> opp (lzx k q) (TN h p k a b) q.
Proof.
  intros Hlo H Hq Hlt x Hx. cbn [wft] in H. destruct H as (Hp&Hku&Ha&Hb&Wa&Wb).
  pose proof (lzx_range k q Hku Hq).
  assert (agree p k (l_key x)).
  { cbn [leaves] in Hx. apply in_app_or in Hx. destruct Hx as [Hx|Hx]; [apply Ha|apply Hb]; assumption. }
  pose proof (lzx_bit _ _ Hku Hq ltac:(lia)) as B.
  split.
  - apply agree_trans with k; [apply agree_sym, lzx_agree; assumption|].
    eapply agree_le; eauto; lia.
  - rewrite <- (agree_kbit p (lzx k q) k (l_key x)) by (auto; lia).
    destruct (kbit (lzx k q) k), (kbit (lzx k q) q); cbn; congruence.
Qed.

Lemma mk_split_leaves lo t new h hl hm sh :
  0 <= sh < 128 -> wft lo t -> opp sh t (l_key new) ->
  leaves (mk_split h new hl hm sh t) = lins new (leaves t).
Proof.
  intros Hsh W O. unfold mk_split. destruct (kbit sh (l_key new)) eqn:E; cbn [leaves]; rewrite leaves_rehandle.
  - rewrite lins_above; [reflexivity|]. intros y Hy. destruct (O y Hy) as [A B]. rewrite E in B.
    apply (agree_lt sh); auto. apply agree_sym; assumption.
  - rewrite lins_below; [reflexivity|]. intros y Hy. destruct (O y Hy) as [A B]. rewrite E in B.
    apply (agree_lt sh); auto.
Qed.

Lemma mk_split_wft lo t new h hl hm sh :
  lo < sh < 128 -> wft sh t -> u128 (l_key new) -> opp sh t (l_key new) ->
  wft lo (mk_split h new hl hm sh t).
Proof.
  intros Hsh W U O. unfold mk_split. destruct (kbit sh (l_key new)) eqn:E; cbn [wft leaves];
    rewrite leaves_rehandle, wft_rehandle.
  - split; [lia|]. split; [assumption|]. split; [|split; [|split; [assumption|split; [lia|assumption]]]].
    + intros x Hx. destruct (O x Hx) as [A B]. rewrite E in B. auto.
    + intros x [<-|[]]. split; [apply agree_refl|assumption].
  - split; [lia|]. split; [assumption|]. split; [|split; [|split; [split; [lia|assumption]|assumption]]].
    + intros x [<-|[]]. split; [apply agree_refl|assumption].
    + intros x Hx. destruct (O x Hx) as [A B]. rewrite E in B. auto.
Qed.

Lemma wft_raise lo sh h p k a b : wft lo (TN h p k a b) -> sh < p -> wft sh (TN h p k a b).
Proof. cbn [wft]. intuition lia. Qed.

Lemma t_ins_spec lo t new hl hm : -1 <= lo -> wft lo t -> u128 (l_key new) -> near lo t (l_key new) ->
  leaves (t_ins t new hl hm) = lins new (leaves t) /\ wft lo (t_ins t new hl hm).
Proof.
  revert lo. induction t as [h l|h p k a IHa b IHb]; intros lo Hlo W U N.
  - cbn [t_ins]. destruct W as [W1 W2]. destruct (l_key l =? l_key new) eqn:E.
    + cbn. replace (l_key new <? l_key l) with false by lia.
      replace (l_key new =? l_key l) with true by lia. auto.
    + pose proof (opp_leaf h l (l_key new) W2 U ltac:(lia)) as O.
      set (sh := lzx (l_key l) (l_key new)) in *.
      assert (sh < 128).
      { pose proof (lzx_range _ _ W2 U). pose proof (lzx_eq (l_key l) (l_key new)). unfold sh. lia. }
      assert (lo + 1 <= sh).
      { apply agree_lzx; auto; [lia|]. apply N. cbn; auto. }
      split.
      * apply (mk_split_leaves lo); [lia|split; assumption|assumption].
      * apply mk_split_wft; [lia| |assumption|assumption]. split; [lia|assumption].
  - cbn [t_ins]. pose proof W as W'. cbn [wft] in W'. destruct W' as (Hp&Hk&Ha&Hb&Wa&Wb).
    destruct (p <=? lzx k (l_key new)) eqn:E.
    + destruct (kbit p (l_key new)) eqn:F.
      * pose proof (near_child_r _ _ _ _ _ _ _ Hlo W U ltac:(lia) F) as Nb.
        destruct (IHb p ltac:(lia) Wb U Nb) as [L1 L2]. cbn [leaves]. rewrite L1. split.
        -- rewrite lins_app_r; [reflexivity|]. intros y Hy. destruct (Ha y Hy).
           apply (agree_lt p); [lia| |assumption|assumption].
           apply agree_trans with k; [apply agree_sym; assumption|].
           eapply agree_le; [apply lzx_agree; assumption|lia|]. pose proof (lzx_range k _ Hk U). lia.
        -- cbn [wft]. split; [lia|]. split; [assumption|]. split; [assumption|]. split; [|split; assumption].
           rewrite L1. intros x Hx. apply lins_In in Hx. destruct Hx as [->|Hx]; [|auto].
           split; [|assumption]. eapply agree_le; [apply lzx_agree; assumption|lia|].
           pose proof (lzx_range k _ Hk U). lia.
      * pose proof (near_child_l _ _ _ _ _ _ _ Hlo W U ltac:(lia) F) as Na.
        destruct (IHa p ltac:(lia) Wa U Na) as [L1 L2]. cbn [leaves]. rewrite L1. split.
        -- rewrite lins_app_l; [reflexivity| |].
           ++ destruct (leaves_nonempty a) as [x Hx]. intros Z0. rewrite Z0 in Hx. destruct Hx.
           ++ intros y Hy. destruct (Hb y Hy).
              apply (agree_lt p); [lia| |assumption|assumption].
              apply agree_sym. apply agree_trans with k; [apply agree_sym; assumption|].
              eapply agree_le; [apply lzx_agree; assumption|lia|]. pose proof (lzx_range k _ Hk U). lia.
        -- cbn [wft]. split; [lia|]. split; [assumption|]. split; [|split; [assumption|split; assumption]].
           rewrite L1. intros x Hx. apply lins_In in Hx. destruct Hx as [->|Hx]; [|auto].
           split; [|assumption]. eapply agree_le; [apply lzx_agree; assumption|lia|].
           pose proof (lzx_range k _ Hk U). lia.
    + assert (Hlt : lzx k (l_key new) < p) by lia.
      pose proof (opp_inner _ _ _ _ _ _ _ Hlo W U Hlt) as O.
      pose proof (near_inner _ _ _ _ _ _ _ Hlo W U N) as NI.
      pose proof (agree_lzx (lo + 1) _ _ Hk U ltac:(lia) NI).
      split.
      * apply (mk_split_leaves lo); [lia|assumption|assumption].
      * apply mk_split_wft; [lia| |assumption|assumption]. eapply wft_raise; eauto.
Qed.

(** * Removing a leaf from an inner node: the sibling takes the parent's place. *)
Fixpoint t_del (t : tree) (k : Z) : option tree :=
  match t with
  | TL _ l => None
  | TN h p k0 a b =>
      if kbit p k then
        match b with
        | TL _ l => Some (rehandle a h)
        | TN _ _ _ _ _ => match t_del b k with Some b' => Some (TN h p k0 a b') | None => None end
        end
      else
        match a with
        | TL _ l => Some (rehandle b h)
        | TN _ _ _ _ _ => match t_del a k with Some a' => Some (TN h p k0 a' b) | None => None end
        end
  end.

Lemma ldel_all_ne k l : (forall x, In x l -> l_key x <> k) -> ldel k l = l.
Proof. apply ldel_none. Qed.

Lemma t_del_spec lo t k l : -1 <= lo -> wft lo t -> t_find t k = Some l ->
  match t with TL _ _ => True | _ =>
  exists t', t_del t k = Some t' /\ leaves t' = ldel k (leaves t) /\ wft lo t' /\ th t' = th t
  end.
Proof.
  revert lo. induction t as [h l0|h p k0 a IHa b IHb]; intros lo Hlo W F; [exact I|].
  pose proof W as W'. cbn [wft] in W'. destruct W' as (Hp&Hk&Ha&Hb&Wa&Wb).
  cbn [t_find t_del] in *. destruct (kbit p k) eqn:E.
  - assert (Hna : forall x, In x (leaves a) -> l_key x <> k).
    { intros x Hx Ex. destruct (Ha x Hx). congruence. }
    specialize (IHb p ltac:(lia) Wb F). destruct b as [hb lb|hb pb kb ba bb].
    + eexists. split; [reflexivity|]. cbn [t_find] in F.
      destruct (l_key lb =? k) eqn:G; [|discriminate].
      split; [|split; [apply wft_rehandle; apply (wft_lo p); [assumption|lia]|apply th_rehandle]].
      rewrite leaves_rehandle. cbn [leaves]. rewrite ldel_app, (ldel_none k (leaves a)) by assumption.
      cbn. rewrite G. cbn. rewrite app_nil_r. reflexivity.
    + destruct IHb as (b' & Eb & Lb & Wb' & _). rewrite Eb.
      eexists. split; [reflexivity|]. cbn [leaves wft th]. rewrite Lb, ldel_app, (ldel_none k (leaves a)) by assumption.
      split; [reflexivity|]. split; [|reflexivity].
      split; [lia|]. split; [assumption|]. split; [assumption|]. split; [|split; assumption].
      intros x Hx. apply ldel_In in Hx. apply Hb. tauto.
  - assert (Hnb : forall x, In x (leaves b) -> l_key x <> k).
    { intros x Hx Ex. destruct (Hb x Hx). congruence. }
    specialize (IHa p ltac:(lia) Wa F). destruct a as [hb lb|hb pb kb ba bb].
    + eexists. split; [reflexivity|]. cbn [t_find] in F.
      destruct (l_key lb =? k) eqn:G; [|discriminate].
      split; [|split; [apply wft_rehandle; apply (wft_lo p); [assumption|lia]|apply th_rehandle]].
      rewrite leaves_rehandle. cbn [leaves]. rewrite ldel_app, (ldel_none k (leaves b)) by assumption.
      cbn. rewrite G. reflexivity.
    + destruct IHa as (b' & Eb & Lb & Wb' & _). rewrite Eb.
      eexists. split; [reflexivity|]. cbn [leaves wft th]. rewrite Lb, ldel_app, (ldel_none k (leaves b)) by assumption.
      split; [reflexivity|]. split; [|reflexivity].
      split; [lia|]. split; [assumption|]. split; [|split; [assumption|split; assumption]].
      intros x Hx. apply ldel_In in Hx. apply Ha. tauto.
Qed.
