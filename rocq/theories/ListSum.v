(** Sums over lists, and how the order book list operations change them. *)
From Verif Require Import Base BaseProofs Critbit CritbitProofs CritbitSlab CritbitOps CritbitSpec CritbitRefine.
Require Import Permutation.

Fixpoint zsum {A} (f : A -> Z) (l : list A) : Z :=
  match l with [] => 0 | x :: r => f x + zsum f r end.

Section S.
Context {A : Type}.
Implicit Types (f g : A -> Z) (l : list A).
Lemma zsum_app f a b : zsum f (a ++ b) = zsum f a + zsum f b.
Proof. induction a; cbn [zsum app]; lia. Qed.
Lemma zsum_perm f a b : Permutation a b -> zsum f a = zsum f b.
Proof. induction 1; cbn [zsum]; lia. Qed.
Lemma zsum_nonneg f l : (forall x, In x l -> 0 <= f x) -> 0 <= zsum f l.
Proof. induction l; cbn [zsum]; intros H; [lia|]. pose proof (H a (or_introl eq_refl)).
  assert (0 <= zsum f l) by (apply IHl; intros; apply H; right; assumption). lia. Qed.
Lemma zsum_ext f g l : (forall x, In x l -> f x = g x) -> zsum f l = zsum g l.
Proof. induction l; cbn [zsum]; intros H; [reflexivity|]. rewrite (H a (or_introl eq_refl)).
  rewrite IHl; [reflexivity|]. intros; apply H; right; assumption. Qed.
Lemma zsum_le f g l : (forall x, In x l -> f x <= g x) -> zsum f l <= zsum g l.
Proof. induction l; cbn [zsum]; intros H; [lia|]. pose proof (H a (or_introl eq_refl)).
  assert (zsum f l <= zsum g l) by (apply IHl; intros; apply H; right; assumption). lia. Qed.
Lemma zsum_In_le f l x : (forall y, In y l -> 0 <= f y) -> In x l -> f x <= zsum f l.
Proof. induction l; cbn [zsum]; intros H Hx; [destruct Hx|].
  assert (0 <= zsum f l) by (apply zsum_nonneg; intros; apply H; right; assumption).
  destruct Hx as [->|Hx]; [lia|]. pose proof (H a (or_introl eq_refl)).
  assert (f x <= zsum f l) by (apply IHl; auto; intros; apply H; right; assumption). lia. Qed.
Lemma zsum_plus f g l : zsum (fun x => f x + g x) l = zsum f l + zsum g l.
Proof. induction l; cbn [zsum]; lia. Qed.
Lemma zsum_0 l : zsum (fun _ => 0) l = 0.
Proof. induction l; cbn [zsum]; lia. Qed.
Lemma zsum_zero f l : (forall x, In x l -> f x = 0) -> zsum f l = 0.
Proof. intros H. rewrite (zsum_ext f (fun _ => 0) l H). apply zsum_0. Qed.
Lemma zsum_filter f p l : zsum f (filter p l) = zsum (fun x => if p x then f x else 0) l.
Proof. induction l; cbn [zsum filter]; [reflexivity|]. destruct (p a); cbn [zsum]; lia. Qed.
End S.

Lemma zsum_map {A B} (f : B -> Z) (h : A -> B) l : zsum f (map h l) = zsum (fun x => f (h x)) l.
Proof. induction l; cbn [zsum map]; [reflexivity|]. rewrite IHl. reflexivity. Qed.

(** Book operations. *)
Lemma ldel_perm b l : sorted l -> In b l -> Permutation l (b :: ldel (l_key b) l).
Proof.
  intros S. induction S as [|x l S IH F]; intros Hb; [destruct Hb|].
  cbn [ldel filter]. destruct Hb as [->|Hb].
  - rewrite Z.eqb_refl. cbn [negb]. fold (ldel (l_key b) l).
    rewrite ldel_none; [reflexivity|]. intros y Hy. rewrite Forall_forall in F.
    specialize (F y Hy). unfold klt in F. lia.
  - rewrite Forall_forall in F. pose proof (F b Hb) as Fb. unfold klt in Fb.
    replace (l_key x =? l_key b) with false by lia. cbn [negb]. fold (ldel (l_key b) l).
    etransitivity; [apply perm_skip, IH, Hb|]. apply perm_swap.
Qed.
Lemma zsum_ldel f b l : sorted l -> In b l -> zsum f (ldel (l_key b) l) = zsum f l - f b.
Proof. intros S H. pose proof (zsum_perm f _ _ (ldel_perm b l S H)) as P. cbn [zsum] in P. lia. Qed.
Lemma zsum_lins f x l : sorted l -> lfind (l_key x) l = None -> zsum f (lins x l) = zsum f l + f x.
Proof.
  intros S H. rewrite (zsum_perm f _ _ (lins_perm x l S)). cbn [zsum].
  rewrite lfind_None in H. rewrite ldel_none by assumption. lia.
Qed.
Lemma zsum_lset f b b' l : sorted l -> In b l -> l_key b' = l_key b ->
  zsum f (lset b' l) = zsum f l - f b + f b'.
Proof.
  intros S. induction S as [|x l S IH F]; intros Hb E; [destruct Hb|].
  unfold lset in *. cbn [map zsum]. rewrite Forall_forall in F. destruct Hb as [->|Hb].
  - rewrite E, Z.eqb_refl.
    assert (R : map (fun y => if l_key y =? l_key b then b' else y) l = l).
    { rewrite <- (map_id l) at 2. apply map_ext_in. intros y Hy. specialize (F y Hy). unfold klt in F.
      replace (l_key y =? l_key b) with false by lia. reflexivity. }
    rewrite R. lia.
  - pose proof (F b Hb) as Fb. unfold klt in Fb.
    replace (l_key x =? l_key b') with false by lia. rewrite IH by assumption. lia.
Qed.
Lemma lset_In l b' y : In y (lset b' l) -> y = b' \/ (In y l /\ l_key y <> l_key b').
Proof.
  unfold lset. rewrite in_map_iff. intros (x & E & Hx).
  destruct (l_key x =? l_key b') eqn:K; [left; congruence|right; subst; split; [assumption|lia]].
Qed.
Lemma lset_sorted l b' : sorted l -> sorted (lset b' l).
Proof.
  intros S. induction S as [|x l S IH F]; [constructor|]. cbn [lset map]. constructor; [exact IH|].
  rewrite Forall_forall in *. intros y Hy. fold (lset b' l) in Hy.
  assert (K : In (l_key y) (map l_key (lset b' l))) by (apply in_map; assumption).
  rewrite lset_keys in K. apply in_map_iff in K. destruct K as (z & E & Hz). specialize (F z Hz).
  unfold klt in *. destruct (l_key x =? l_key b') eqn:K2; lia.
Qed.
Lemma first_leaf_In b l x : first_leaf b l = Some x -> In x l.
Proof.
  unfold first_leaf. destruct b; intros H.
  - apply in_rev. destruct (rev l); cbn in H; [discriminate|]. inversion H; subst. left; reflexivity.
  - destruct l; cbn in H; [discriminate|]. inversion H; subst. left; reflexivity.
Qed.
