(** The slab refines the finite map of CritbitSpec.v. *)
From Verif Require Import Base BaseProofs Critbit CritbitBits CritbitProofs CritbitSlab CritbitOps CritbitSpec.
Require Import Permutation Sorted.

Lemma orders_from_inorder fuel s : forall h, orders_from fuel s h = inorder fuel s h.
Proof.
  induction fuel as [|n IH]; intros h; [reflexivity|]. cbn [orders_from inorder].
  destruct (slab_get s h) as [[]|]; reflexivity.
Qed.
Lemma orders_book s : orders s = book s.
Proof.
  unfold orders, book, slab_root. destruct (s_leafs s =? 0); [reflexivity|]. apply orders_from_inorder.
Qed.

Lemma perm_sorted_eq a b : sorted a -> sorted b -> Permutation a b -> a = b.
Proof.
  intros Sa. revert b. induction Sa as [|x a Sa IH Fa]; intros b Sb P.
  - apply Permutation_nil in P. congruence.
  - destruct b as [|y b]; [apply Permutation_sym, Permutation_nil in P; discriminate|].
    inversion Sb as [|? ? Sb' Fb]; subst. rewrite Forall_forall in Fa, Fb. unfold klt in *.
    assert (x = y).
    { assert (Hx : In x (y :: b)) by (eapply Permutation_in; [eassumption|cbn; auto]).
      assert (Hy : In y (x :: a)) by (eapply Permutation_in; [apply Permutation_sym; eassumption|cbn; auto]).
      destruct Hx as [->|Hx]; [reflexivity|]. destruct Hy as [->|Hy]; [reflexivity|].
      specialize (Fa _ Hy). specialize (Fb _ Hx). lia. }
    subst y. f_equal. apply IH; [assumption|]. eapply Permutation_cons_inv; eassumption.
Qed.

Definition kuniq (m : list leaf) : Prop := NoDup (map l_key m).

Lemma sorted_kuniq l : sorted l -> kuniq l.
Proof.
  unfold kuniq. induction 1 as [|x l S IH F]; cbn; [constructor|]. constructor; [|assumption].
  rewrite in_map_iff. intros (y & E & Hy). rewrite Forall_forall in F. specialize (F y Hy). unfold klt in F. lia.
Qed.
Lemma kuniq_inj m x y : kuniq m -> In x m -> In y m -> l_key x = l_key y -> x = y.
Proof.
  unfold kuniq. induction m as [|z m IH]; cbn; intros U Hx Hy E; [destruct Hx|].
  inversion U as [|? ? N U']; subst. destruct Hx as [->|Hx], Hy as [->|Hy]; auto.
  - exfalso. apply N. rewrite E. apply in_map. assumption.
  - exfalso. apply N. rewrite <- E. apply in_map. assumption.
Qed.
Lemma m_find_lfind k m l : sorted l -> Permutation l m -> m_find k m = lfind k l.
Proof.
  intros S P. change (m_find k m) with (lfind k m).
  pose proof (sorted_kuniq _ S) as U. destruct (lfind k l) as [x|] eqn:E.
  - apply lfind_Some in E. destruct E as [E1 E2]. destruct (lfind k m) as [y|] eqn:F.
    + apply lfind_Some in F. destruct F as [F1 F2]. f_equal. apply (kuniq_inj l); auto; [|congruence].
      eapply Permutation_in; [apply Permutation_sym|]; eassumption.
    + rewrite lfind_None in F. exfalso. apply (F x); auto. eapply Permutation_in; eassumption.
  - apply lfind_None. intros x Hx. rewrite lfind_None in E. apply E.
    eapply Permutation_in; [apply Permutation_sym|]; eassumption.
Qed.
Lemma filter_perm {A} (f : A -> bool) a b : Permutation a b -> Permutation (filter f a) (filter f b).
Proof.
  induction 1; cbn; auto.
  - destruct (f x); auto.
  - destruct (f x), (f y); auto. apply perm_swap.
  - etransitivity; eassumption.
Qed.
Lemma lins_perm x l : sorted l -> Permutation (lins x l) (x :: ldel (l_key x) l).
Proof.
  induction 1 as [|z l S IH F]; cbn [lins]; [reflexivity|]. rewrite Forall_forall in F. unfold klt in F.
  unfold ldel in *. cbn [filter].
  destruct (l_key x <? l_key z) eqn:E1; [|destruct (l_key x =? l_key z) eqn:E2].
  - replace (l_key z =? l_key x) with false by lia. cbn [negb].
    change (filter _ l) with (ldel (l_key x) l).
    rewrite ldel_none; [reflexivity|]. intros y Hy. specialize (F y Hy). lia.
  - replace (l_key z =? l_key x) with true by lia. cbn [negb].
    change (filter _ l) with (ldel (l_key x) l).
    rewrite ldel_none; [reflexivity|]. intros y Hy. specialize (F y Hy). lia.
  - replace (l_key z =? l_key x) with false by lia. cbn [negb]. rewrite IH. apply perm_swap.
Qed.
Lemma lset_perm x y l : sorted l -> lfind (l_key x) l = Some y -> Permutation (lset x l) (x :: ldel (l_key x) l).
Proof.
  intros S E. rewrite <- lins_perm by assumption.
  replace (lset x l) with (lins x l); [reflexivity|].
  revert E. induction S as [|z l S IH F]; intros E; [discriminate|].
  rewrite Forall_forall in F. unfold klt in F.
  apply lfind_Some in E. destruct E as [E1 E2]. cbn [lins lset map]. destruct E1 as [->|E1].
  - rewrite E2, Z.ltb_irrefl, Z.eqb_refl. f_equal. symmetry. apply (lset_out x l). intros w Hw. specialize (F w Hw). lia.
  - specialize (F y E1) as F'.
    replace (l_key x <? l_key z) with false by lia. replace (l_key x =? l_key z) with false by lia.
    replace (l_key z =? l_key x) with false by lia. f_equal. apply IH. apply lfind_In; auto.
Qed.

Lemma m_ext_spec mx m : match m_ext mx m with
  | None => m = []
  | Some x => In x m /\ forall y, In y m -> if mx then l_key y <= l_key x else l_key x <= l_key y
  end.
Proof.
  induction m as [|x m IH]; cbn [m_ext]; [reflexivity|].
  destruct (m_ext mx m) as [y|].
  - destruct IH as [I1 I2]. destruct (if mx then l_key y <? l_key x else l_key x <? l_key y) eqn:E.
    + split; [cbn; auto|]. intros z [->|Hz]; [destruct mx; lia|]. specialize (I2 z Hz). destruct mx; lia.
    + split; [cbn; auto|]. intros z [->|Hz]; [destruct mx; lia|]. specialize (I2 z Hz). destruct mx; lia.
  - subst m. split; [cbn; auto|]. intros z [->|[]]. destruct mx; lia.
Qed.
Lemma first_leaf_min b l x : sorted l -> first_leaf b l = Some x ->
  In x l /\ forall y, In y l -> if b then l_key y <= l_key x else l_key x <= l_key y.
Proof.
  intros S F. unfold first_leaf in F. destruct b.
  - destruct (rev l) as [|z r] eqn:E; [discriminate|]. cbn in F. inversion F; subst z.
    assert (l = rev r ++ [x]) by (rewrite <- (rev_involutive l), E; reflexivity). subst l.
    apply sorted_app_inv in S. destruct S as (_ & _ & H). split; [apply in_or_app; cbn; auto|].
    intros y Hy. apply in_app_or in Hy. destruct Hy as [Hy|[->|[]]]; [|lia].
    specialize (H y x Hy (or_introl eq_refl)). unfold klt in H. lia.
  - destruct l as [|z r]; [discriminate|]. cbn in F. inversion F; subst z.
    split; [cbn; auto|]. inversion S as [|? ? S' Fa]; subst. rewrite Forall_forall in Fa.
    intros y [->|Hy]; [lia|]. specialize (Fa y Hy). unfold klt in Fa. lia.
Qed.
Lemma first_leaf_None b l : first_leaf b l = None -> l = [].
Proof.
  unfold first_leaf. destruct b; destruct l as [|x l]; auto; cbn; [|discriminate].
  intros H. destruct (rev l); discriminate.
Qed.
Lemma m_ext_first mx m l : sorted l -> Permutation l m -> m_ext mx m = first_leaf mx l.
Proof.
  intros S P. pose proof (m_ext_spec mx m) as H. destruct (m_ext mx m) as [x|].
  - destruct H as [H1 H2]. destruct (first_leaf mx l) as [y|] eqn:E.
    + apply first_leaf_min in E; [|assumption]. destruct E as [E1 E2]. f_equal.
      apply (sorted_uniq l); auto.
      * eapply Permutation_in; [apply Permutation_sym|]; eassumption.
      * assert (Hx : In x l) by (eapply Permutation_in; [apply Permutation_sym|]; eassumption).
        assert (Hy : In y m) by (eapply Permutation_in; eassumption).
        specialize (H2 y Hy). specialize (E2 x Hx). destruct mx; lia.
    + apply first_leaf_None in E. subst l. apply Permutation_nil in P. subst m. destruct H1.
  - subst m. apply Permutation_sym, Permutation_nil in P. subst l. destruct mx; reflexivity.
Qed.

Lemma bstep_refines s o m : slab_ok s -> bop_ok o -> Permutation (book s) m ->
  exists s', bstep s o = Ok (s', snd (m_step (zlen (s_nodes s)) m o)) /\ slab_ok s' /\ same_cap s s' /\
             Permutation (book s') (fst (m_step (zlen (s_nodes s)) m o)).
Proof.
  intros H Ho P. pose proof (book_sorted _ H) as S. destruct o as [l|k|mx|mx q]; cbn [bstep m_step].
  - destruct (insert_leaf_spec s l H Ho) as (s' & out & E1 & E2 & E3 & E4). rewrite E1. cbn [rbind].
    exists s'. rewrite (m_find_lfind _ _ _ S P). unfold slab_cap, nodes_for in E4.
    assert (Hlen : zlen (book s) = zlen m) by (unfold zlen; rewrite (Permutation_length P); reflexivity).
    pose proof (zlen_nonneg m). rewrite Hlen in E4.
    destruct out as [h old|].
    + destruct E4 as (B1 & B2 & B3 & B4 & B5). rewrite <- B2. destruct old as [o|].
      * split; [reflexivity|]. split; [assumption|]. split; [assumption|]. cbn [fst]. rewrite B1, lins_perm by assumption.
        apply perm_skip. apply filter_perm. assumption.
      * specialize (B5 eq_refl). replace (zlen m + 1 =? 0) with false in B5 by lia.
        replace (2 * (zlen m + 1) - 1 <=? Z.min (zlen (s_nodes s)) 4294967295) with true by lia.
        split; [reflexivity|]. split; [assumption|]. split; [assumption|]. cbn [fst]. rewrite B1, lins_perm by assumption.
        apply perm_skip. symmetry in B2. rewrite lfind_None in B2. rewrite ldel_none by assumption. assumption.
    + destruct E4 as (B1 & B2 & B3). rewrite B2. replace (zlen m + 1 =? 0) with false in B3 by lia.
      replace (2 * (zlen m + 1) - 1 <=? Z.min (zlen (s_nodes s)) 4294967295) with false by lia.
      split; [reflexivity|]. split; [assumption|]. split; [assumption|]. cbn [fst]. rewrite B1. assumption.
  - destruct (remove_by_key_spec s k H) as (s' & E1 & E2 & E3 & E4). rewrite E1. cbn [rbind].
    exists s'. rewrite (m_find_lfind _ _ _ S P). split; [reflexivity|]. split; [assumption|]. split; [assumption|].
    cbn [fst]. rewrite E4. apply filter_perm. assumption.
  - destruct (remove_extreme_spec s mx H) as (s' & E1 & E2 & E3 & E4).
    replace (if mx then remove_max s else remove_min s) with (remove_extreme s mx) by (destruct mx; reflexivity).
    rewrite E1. cbn [rbind]. exists s'. rewrite (m_ext_first _ _ _ S P).
    destruct (first_leaf mx (book s)) as [x|]; cbn [fst snd].
    + split; [reflexivity|]. split; [assumption|]. split; [assumption|]. rewrite E4. apply filter_perm. assumption.
    + split; [reflexivity|]. split; [assumption|]. split; [assumption|]. rewrite E4. assumption.
  - pose proof (find_min_max_spec s mx H) as F.
    replace (if mx then find_max s else find_min s) with (find_min_max s mx) by (destruct mx; reflexivity).
    rewrite (m_ext_first _ _ _ S P). destruct (first_leaf mx (book s)) as [x|].
    + destruct F as (h & F1 & F2). rewrite F1. cbn [rbind]. unfold get_leaf.
      destruct F2 as [G B]. rewrite G. cbn [rbind].
      destruct (slab_set_spec s h x (set_qty x q) H (conj G B) eq_refl) as (I1 & I2 & I3).
      eexists. split; [reflexivity|]. split; [assumption|]. split; [assumption|]. cbn [fst]. rewrite I2.
      rewrite (lset_perm _ x).
      * apply perm_skip. apply filter_perm. assumption.
      * assumption.
      * apply lfind_In; [assumption| |reflexivity]. eapply leaf_at_book; [eassumption|split; eassumption].
    + destruct F as [F1 F2]. rewrite F1. cbn [rbind]. exists s. split; [reflexivity|]. split; [assumption|].
      split; [reflexivity|assumption].
Qed.

Lemma brun_refines ops : forall s m, Forall bop_ok ops -> slab_ok s -> Permutation (book s) m ->
  exists s', brun s ops = Ok (s', snd (m_run (zlen (s_nodes s)) m ops)) /\ slab_ok s' /\ same_cap s s' /\
             Permutation (book s') (fst (m_run (zlen (s_nodes s)) m ops)).
Proof.
  induction ops as [|o ops IH]; intros s m Ho H P; cbn [brun m_run].
  - exists s. split; [reflexivity|]. split; [assumption|]. split; [reflexivity|assumption].
  - inversion Ho as [|? ? Ho1 Ho2]; subst.
    destruct (bstep_refines s o m H Ho1 P) as (s1 & E1 & E2 & E3 & E4). rewrite E1. cbn [rbind].
    destruct (m_step (zlen (s_nodes s)) m o) as [m1 x] eqn:EM. cbn [fst snd] in *.
    destruct (IH s1 m1 Ho2 E2 E4) as (s2 & F1 & F2 & F3 & F4). unfold same_cap in E3. rewrite E3 in *.
    rewrite F1. cbn [rbind]. destruct (m_run (zlen (s_nodes s)) m1 ops) as [m2 xs] eqn:ER. cbn [fst snd] in *.
    exists s2. split; [reflexivity|]. split; [assumption|]. split; [|assumption]. unfold same_cap in *. congruence.
Qed.

Lemma zlen_repeat {A} (x : A) n : zlen (repeat x n) = Z.of_nat n.
Proof. unfold zlen. rewrite repeat_length. reflexivity. Qed.

Lemma reachable_ok cap s : reachable cap s -> slab_ok s /\ zlen (s_nodes s) = Z.of_nat cap.
Proof.
  intros (ops & outs & Ho & E). destruct (slab_new_ok cap) as [H B].
  destruct (brun_refines ops (slab_new cap) [] Ho H) as (s' & E1 & E2 & E3 & E4); [rewrite B; constructor|].
  rewrite E in E1. inversion E1; subst s'. split; [assumption|]. unfold same_cap in E3. rewrite E3. apply zlen_repeat.
Qed.

(** * Theorems restated by Properties_Critbit.v *)
Lemma book_finite_map cap ops : Forall bop_ok ops ->
  exists s, brun (slab_new cap) ops = Ok (s, snd (m_run (Z.of_nat cap) [] ops)) /\
    Permutation (orders s) (fst (m_run (Z.of_nat cap) [] ops)) /\
    StronglySorted (fun a b => l_key a < l_key b) (orders s).
Proof.
  intros Ho. destruct (slab_new_ok cap) as [H B].
  destruct (brun_refines ops (slab_new cap) [] Ho H) as (s' & E1 & E2 & E3 & E4); [rewrite B; constructor|].
  replace (zlen (s_nodes (slab_new cap))) with (Z.of_nat cap) in * by (symmetry; apply zlen_repeat).
  exists s'. split; [assumption|]. rewrite orders_book. split; [assumption|]. apply book_sorted. assumption.
Qed.

Lemma extreme_lookup cap s (mx : bool) : reachable cap s ->
  match (if mx then find_max s else find_min s) with
  | Ok None => orders s = []
  | Ok (Some h) => exists l, slab_get s h = Some (NLeaf l) /\ In l (orders s) /\
      forall x, In x (orders s) -> if mx then l_key x <= l_key l else l_key l <= l_key x
  | _ => False
  end.
Proof.
  intros R. apply reachable_ok in R. destruct R as [H _]. rewrite orders_book.
  pose proof (find_min_max_spec s mx H) as F.
  replace (if mx then find_max s else find_min s) with (find_min_max s mx) by (destruct mx; reflexivity).
  destruct (first_leaf mx (book s)) as [l|] eqn:E.
  - destruct F as (h & F1 & F2). rewrite F1. exists l. apply first_leaf_min in E; [|apply book_sorted; assumption].
    destruct F2, E. auto.
  - destruct F as [F1 F2]. rewrite F1. assumption.
Qed.

Lemma slots_repr s t fuel : repr (s_nodes s) t -> (height t <= fuel)%nat -> slots_from fuel s (th t) = handles t.
Proof.
  revert fuel. induction t as [h l|h p k a IHa b IHb]; intros fuel R Hf.
  - destruct fuel; cbn [height] in Hf; [lia|]. cbn [slots_from]. rewrite (repr_get _ _ R). reflexivity.
  - destruct fuel; cbn [height] in Hf; [lia|]. cbn [slots_from]. rewrite (repr_get _ _ R). cbn [contents].
    cbn [repr] in R. destruct R as (_ & Ra & Rb). rewrite IHa, IHb by (auto; lia). reflexivity.
Qed.
Lemma free_walk_chain s fl : forall hd, chain (s_nodes s) hd fl -> free_walk (length fl) s hd = fl.
Proof.
  induction fl as [|h r IH]; intros hd C; cbn [length free_walk]; [reflexivity|].
  cbn [chain] in C. destruct C as [-> (next & E & C)]. rewrite E. destruct r; rewrite (IH next C); reflexivity.
Qed.

Lemma storage_integrity cap s : reachable cap s ->
  let n := zlen (orders s) in
  zlen (tree_slots s) = (if n =? 0 then 0 else 2 * n - 1) /\
  NoDup (tree_slots s ++ free_slots s) /\
  (forall h, In h (tree_slots s ++ free_slots s) <-> 0 <= h < s_bump s) /\
  0 <= s_bump s <= Z.of_nat cap /\ s_leafs s = n.
Proof.
  intros R. apply reachable_ok in R. destruct R as [H HC]. cbv zeta. rewrite orders_book.
  rewrite (book_leafs _ H). pose proof H as H'. destruct H' as (ot & fl & R).
  assert (T : tree_slots s = ohandles ot).
  { unfold tree_slots.
    pose proof (slab_root_rep _ _ _ R) as Q. unfold slab_root in Q.
    destruct (s_leafs s =? 0); destruct ot as [t|]; try discriminate; [reflexivity|].
    inversion Q as [Q']. rewrite Q'. destruct R as [_ _ (_ & Rp & W)]. apply slots_repr; [assumption|].
    apply height_fuel; assumption. }
  assert (F : free_slots s = fl).
  { unfold free_slots. destruct R as [Hh _ _]. rewrite (hp_len _ _ _ Hh).
    unfold zlen. rewrite Nat2Z.id. apply free_walk_chain. apply Hh. }
  rewrite T, F. rewrite (book_rep _ _ _ R). destruct R as [Hh _ _].
  split.
  - destruct ot as [t|]; cbn [ohandles oleaves]; [|reflexivity].
    rewrite handles_len. pose proof (leaves_len_pos t). replace (zlen (leaves t) =? 0) with false by lia. reflexivity.
  - destruct Hh. rewrite HC in *. auto.
Qed.

Lemma insert_capacity cap s new : reachable cap s -> u128 (l_key new) ->
  exists s' out, insert_leaf s new = Ok (s', out) /\
   (out = OutOfSpace <->
      (forall x, In x (orders s) -> l_key x <> l_key new) /\
      Z.min (Z.of_nat cap) 4294967295 < 2 * (zlen (orders s) + 1) - 1) /\
   (out = OutOfSpace -> orders s' = orders s).
Proof.
  intros R U. apply reachable_ok in R. destruct R as [H HC].
  destruct (insert_leaf_spec s new H U) as (s' & out & E1 & E2 & E3 & E4). exists s', out. split; [assumption|].
  rewrite !orders_book. unfold slab_cap, nodes_for in E4. rewrite HC in E4. pose proof (zlen_nonneg (book s)).
  replace (zlen (book s) + 1 =? 0) with false in E4 by lia.
  destruct out as [h old|].
  - destruct E4 as (B1 & B2 & B3 & B4 & B5). split; [|discriminate]. split; [discriminate|].
    intros [C1 C2]. apply lfind_None in C1. rewrite C1 in B2. specialize (B5 B2). lia.
  - destruct E4 as (B1 & B2 & B3). split; [|intros _; assumption]. split; [|reflexivity]. intros _.
    split; [apply lfind_None; assumption|assumption].
Qed.

Lemma NoDup_app_l {A} (a b : list A) : NoDup (a ++ b) -> NoDup a.
Proof. intros H. apply NoDup_app_inv in H. tauto. Qed.

Lemma find_by_loop_budget limit s p st found : (snd (find_by_loop limit s p st found) <= limit)%nat.
Proof.
  revert st found. induction limit as [|n IH]; intros st found; destruct st as [|h r]; cbn; auto.
  destruct (slab_get s h) as [[]|]; cbn; try lia; (etransitivity; [apply IH|lia]).
Qed.

Lemma owner_search cap s owner limit : reachable cap s ->
  let '(ids, left_over) := find_by s limit (fun l => l_owner l =? owner) in
  (forall k, In k ids -> exists l, In l (orders s) /\ l_key l = k /\ l_owner l = owner) /\
  NoDup ids /\ (left_over <= limit)%nat /\
  (zlen (tree_slots s) <= Z.of_nat limit ->
     forall l, In l (orders s) -> l_owner l = owner -> In (l_key l) ids).
Proof.
  intros R. pose proof (storage_integrity cap s R) as SI. cbv zeta in SI. destruct SI as (SI & _).
  apply reachable_ok in R. destruct R as [H HC]. rewrite orders_book in *. rewrite SI.
  pose proof (find_by_spec s limit (fun l => l_owner l =? owner) H) as (rest & F1 & F2).
  assert (BD : (snd (find_by s limit (fun l => (l_owner l =? owner)%Z)) <= limit)%nat).
  { unfold find_by. destruct (slab_root s); [apply find_by_loop_budget|cbn; lia]. }
  destruct (find_by s limit (fun l => l_owner l =? owner)) as [ids lo]. cbn [fst snd] in *.
  assert (ND : NoDup (map l_key (filter (fun l => l_owner l =? owner) (rev (book s))))).
  { pose proof (sorted_kuniq _ (book_sorted _ H)) as U. unfold kuniq in U.
    apply Permutation_NoDup with (l := map l_key (filter (fun l => l_owner l =? owner) (book s))).
    - apply Permutation_map, filter_perm, Permutation_rev.
    - clear - U. induction (book s) as [|x l IH]; cbn in *; [constructor|]. inversion U; subst.
      destruct (l_owner x =? owner); cbn; auto. constructor; auto. rewrite in_map_iff in *.
      intros (y & E & Hy). apply filter_In in Hy. apply H1. exists y. tauto. }
  split; [|split; [|split; [assumption|]]].
  - intros k Hk. assert (Hk' : In k (ids ++ rest)) by (apply in_or_app; auto). rewrite F1 in Hk'.
    apply in_map_iff in Hk'. destruct Hk' as (l & El & Hl). apply filter_In in Hl. destruct Hl as [Hl1 Hl2].
    exists l. rewrite <- in_rev in Hl1. split; [assumption|]. split; [assumption|]. lia.
  - rewrite <- F1 in ND. eapply NoDup_app_l; eassumption.
  - intros Hlim l Hl Ho. unfold nodes_for in F2. destruct (F2 Hlim) as [-> _]. rewrite app_nil_r in F1. rewrite F1.
    apply in_map. apply filter_In. split; [rewrite <- in_rev; assumption|]. lia.
Qed.
