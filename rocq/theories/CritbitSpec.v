(** Specification of the order book storage: an ordinary finite map, kept as an unordered list of
    orders with distinct ids.  Nothing here refers to nodes, bits or free lists, except the
    observation functions at the end that list the node slots of a concrete slab. *)
From Verif Require Import Base Critbit.

(** The operations the exchange performs on one side of the book. *)
Inductive bop :=
| OpInsert (l : leaf)          (* store an order *)
| OpRemove (k : Z)             (* remove by id *)
| OpRemoveExt (mx : bool)      (* remove the smallest / largest id *)
| OpSetExt (mx : bool) (q : Z). (* overwrite the quantity of the smallest / largest id in place *)
Inductive bout :=
| OutStored (replaced : option leaf)
| OutFull
| OutLeaf (o : option leaf).

(** Running the operations on the modelled slab. *)
Definition bstep (s : slab) (o : bop) : res (slab * bout) :=
  match o with
  | OpInsert l =>
      '(s', r) <- insert_leaf s l ;;
      Ok (s', match r with Inserted _ old => OutStored old | OutOfSpace => OutFull end)
  | OpRemove k => '(s', r) <- remove_by_key s k ;; Ok (s', OutLeaf r)
  | OpRemoveExt mx => '(s', r) <- (if mx then remove_max s else remove_min s) ;; Ok (s', OutLeaf r)
  | OpSetExt mx q =>
      o <- (if mx then find_max s else find_min s) ;;
      match o with
      | None => Ok (s, OutLeaf None)
      | Some h => l <- get_leaf s h ;; Ok (slab_set s h (NLeaf (set_qty l q)), OutLeaf (Some l))
      end
  end.
Fixpoint brun (s : slab) (ops : list bop) : res (slab * list bout) :=
  match ops with
  | [] => Ok (s, [])
  | o :: r => '(s1, x) <- bstep s o ;; '(s2, xs) <- brun s1 r ;; Ok (s2, x :: xs)
  end.

(** The finite map. *)
Definition m_find (k : Z) (m : list leaf) : option leaf := find (fun x => l_key x =? k) m.
Definition m_del (k : Z) (m : list leaf) : list leaf := filter (fun x => negb (l_key x =? k)) m.
Fixpoint m_ext (mx : bool) (m : list leaf) : option leaf :=
  match m with
  | [] => None
  | x :: r => match m_ext mx r with
              | None => Some x
              | Some y => if (if mx then l_key y <? l_key x else l_key x <? l_key y) then Some x else Some y
              end
  end.
(** [cap] node slots hold a map of [n] orders exactly when [n = 0] or [2n-1 <= cap]. *)
Definition m_step (cap : Z) (m : list leaf) (o : bop) : list leaf * bout :=
  match o with
  | OpInsert l =>
      match m_find (l_key l) m with
      | Some old => (l :: m_del (l_key l) m, OutStored (Some old))
      | None => if 2 * (zlen m + 1) - 1 <=? Z.min cap 4294967295 then (l :: m, OutStored None)
                else (m, OutFull)
      end
  | OpRemove k => (m_del k m, OutLeaf (m_find k m))
  | OpRemoveExt mx =>
      match m_ext mx m with
      | None => (m, OutLeaf None)
      | Some l => (m_del (l_key l) m, OutLeaf (Some l))
      end
  | OpSetExt mx q =>
      match m_ext mx m with
      | None => (m, OutLeaf None)
      | Some l => (set_qty l q :: m_del (l_key l) m, OutLeaf (Some l))
      end
  end.
Fixpoint m_run (cap : Z) (m : list leaf) (ops : list bop) : list leaf * list bout :=
  match ops with
  | [] => (m, [])
  | o :: r => let (m1, x) := m_step cap m o in let (m2, xs) := m_run cap m1 r in (m2, x :: xs)
  end.

(** Operations carry 128-bit ids. *)
Definition bop_ok (o : bop) : Prop := match o with OpInsert l => u128 (l_key l) | _ => True end.
(** Books that can arise from an empty one of [cap] slots. *)
Definition reachable (cap : nat) (s : slab) : Prop :=
  exists ops outs, Forall bop_ok ops /\ brun (slab_new cap) ops = Ok (s, outs).

(** Observations on a concrete slab: the orders in id order, the slots of the tree,
    the slots on the free list. *)
Fixpoint orders_from (fuel : nat) (s : slab) (h : Z) : list leaf :=
  match fuel with
  | O => []
  | S f => match slab_get s h with
           | Some (NInner _ _ a b) => orders_from f s a ++ orders_from f s b
           | Some (NLeaf l) => [l]
           | _ => []
           end
  end.
Definition orders (s : slab) : list leaf :=
  if s_leafs s =? 0 then [] else orders_from 130 s (s_root s).
Fixpoint slots_from (fuel : nat) (s : slab) (h : Z) : list Z :=
  match fuel with
  | O => []
  | S f => match slab_get s h with
           | Some (NInner _ _ a b) => h :: slots_from f s a ++ slots_from f s b
           | Some (NLeaf l) => [h]
           | _ => []
           end
  end.
Definition tree_slots (s : slab) : list Z :=
  if s_leafs s =? 0 then [] else slots_from 130 s (s_root s).
Fixpoint free_walk (n : nat) (s : slab) (h : Z) : list Z :=
  match n with
  | O => []
  | S m => h :: match znth (s_nodes s) h with
                | Some (NFree next) => free_walk m s next
                | Some (NLastFree next) => free_walk m s next
                | _ => []
                end
  end.
Definition free_slots (s : slab) : list Z := free_walk (Z.to_nat (s_free_len s)) s (s_free_head s).
