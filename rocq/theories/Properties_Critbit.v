(** Properties of the order book storage (C05-C08). *)
From Verif Require Import Base Critbit CritbitSpec CritbitRefine.
Require Import Permutation Sorted.

Definition ex_ops : list bop :=
  [OpInsert (mkLeaf 0 0 (5 * B64 + 7) 11 10 1); OpInsert (mkLeaf 1 0 (3 * B64 + 8) 11 20 2);
   OpInsert (mkLeaf 2 0 (9 * B64 + 9) 12 30 3); OpSetExt true 4; OpInsert (mkLeaf 3 0 (4 * B64 + 1) 13 5 4);
   OpRemove (3 * B64 + 8); OpInsert (mkLeaf 3 0 (4 * B64 + 1) 13 6 4)].

(** C05: any operation sequence on an empty book of any capacity gives the outputs and contents
    of an ordinary finite map. *)
Theorem C05_book_is_finite_map : forall (cap : nat) (ops : list bop),
  Forall bop_ok ops ->
  exists s, brun (slab_new cap) ops = Ok (s, snd (m_run (Z.of_nat cap) [] ops)) /\
    Permutation (orders s) (fst (m_run (Z.of_nat cap) [] ops)) /\
    StronglySorted (fun a b => l_key a < l_key b) (orders s).
Proof. exact book_finite_map. Qed.
Print Assumptions C05_book_is_finite_map.
Example C05_nonvacuous : Forall bop_ok ex_ops /\
  snd (m_run 5 [] ex_ops) =
   [OutStored None; OutStored None; OutStored None; OutLeaf (Some (mkLeaf 2 0 (9 * B64 + 9) 12 30 3));
    OutFull; OutLeaf (Some (mkLeaf 1 0 (3 * B64 + 8) 11 20 2)); OutStored None].
Proof. split; [repeat constructor; unfold u128; cbn; lia|vm_compute; reflexivity]. Qed.

(** C06: minimum and maximum lookups. *)
Theorem C06_extreme_lookup : forall (cap : nat) (s : slab) (mx : bool),
  reachable cap s ->
  match (if mx then find_max s else find_min s) with
  | Ok None => orders s = []
  | Ok (Some h) => exists l, slab_get s h = Some (NLeaf l) /\ In l (orders s) /\
      forall x, In x (orders s) -> if mx then l_key x <= l_key l else l_key l <= l_key x
  | _ => False
  end.
Proof. exact extreme_lookup. Qed.
Print Assumptions C06_extreme_lookup.
Example C06_nonvacuous : exists s, reachable 5 s /\ zlen (orders s) = 3.
Proof.
  destruct (brun (slab_new 5) ex_ops) as [[s o]| |] eqn:E; try (vm_compute in E; discriminate).
  exists s. split.
  - exists ex_ops, o. split; [exact (proj1 C05_nonvacuous)|exact E].
  - vm_compute in E. inversion E. vm_compute. reflexivity.
Qed.

(** C07: node slots are used exactly once, and out-of-space is exact. *)
Theorem C07_storage_integrity : forall (cap : nat) (s : slab),
  reachable cap s ->
  let n := zlen (orders s) in
  zlen (tree_slots s) = (if n =? 0 then 0 else 2 * n - 1) /\
  NoDup (tree_slots s ++ free_slots s) /\
  (forall h, In h (tree_slots s ++ free_slots s) <-> 0 <= h < s_bump s) /\
  0 <= s_bump s <= Z.of_nat cap /\ s_leafs s = n.
Proof. exact storage_integrity. Qed.
Print Assumptions C07_storage_integrity.

Theorem C07_out_of_space_exact : forall (cap : nat) (s : slab) (new : leaf),
  reachable cap s -> u128 (l_key new) ->
  exists s' out, insert_leaf s new = Ok (s', out) /\
   (out = OutOfSpace <->
      (forall x, In x (orders s) -> l_key x <> l_key new) /\
      Z.min (Z.of_nat cap) 4294967295 < 2 * (zlen (orders s) + 1) - 1) /\
   (out = OutOfSpace -> orders s' = orders s).
Proof. exact insert_capacity. Qed.
Print Assumptions C07_out_of_space_exact.
Example C07_nonvacuous : exists s, reachable 5 s /\ zlen (orders s) = 3 /\
  exists s', insert_leaf s (mkLeaf 9 0 1 0 1 0) = Ok (s', OutOfSpace).
Proof.
  destruct (brun (slab_new 5) ex_ops) as [[s o]| |] eqn:E; try (vm_compute in E; discriminate).
  exists s. split.
  - exists ex_ops, o. split; [exact (proj1 C05_nonvacuous)|exact E].
  - vm_compute in E. inversion E. vm_compute. eauto.
Qed.

(** C08: search by owner. *)
Theorem C08_owner_search : forall (cap : nat) (s : slab) (owner : Z) (limit : nat),
  reachable cap s ->
  let '(ids, left_over) := find_by s limit (fun l => l_owner l =? owner) in
  (forall k, In k ids -> exists l, In l (orders s) /\ l_key l = k /\ l_owner l = owner) /\
  NoDup ids /\ (left_over <= limit)%nat /\
  (zlen (tree_slots s) <= Z.of_nat limit ->
     forall l, In l (orders s) -> l_owner l = owner -> In (l_key l) ids).
Proof. exact owner_search. Qed.
Print Assumptions C08_owner_search.
Example C08_nonvacuous : exists s o, brun (slab_new 5) ex_ops = Ok (s, o) /\
  find_by s 5 (fun l => l_owner l =? 13) = ([4 * B64 + 1], 0%nat).
Proof.
  destruct (brun (slab_new 5) ex_ops) as [[s o]| |] eqn:E; try (vm_compute in E; discriminate).
  exists s, o. split; [reflexivity|]. vm_compute in E. inversion E. vm_compute. reflexivity.
Qed.
