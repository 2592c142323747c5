(** Model of dex/src/critbit.rs: the order book slab (crit-bit tree in a node array).
    Nodes are typed values rather than 72 raw bytes; the [tag] field of the Rust structs
    is the constructor.  Padding bytes are not modelled. *)
From Verif Require Import Base.

(** LeafNode, [critbit.rs:49-63] *)
Record leaf := mkLeaf {
  l_slot : Z;   (* owner_slot: u8 *)
  l_tier : Z;   (* fee_tier: u8 *)
  l_key : Z;    (* key: u128, the order id *)
  l_owner : Z;  (* owner: [u64;4] *)
  l_qty : Z;    (* quantity: u64 *)
  l_cid : Z     (* client_order_id: u64 *)
}.

(** AnyNode with its tag, [critbit.rs:17-41, 126-135, 157-165] *)
Inductive node :=
| NUninit
| NInner (plen key c0 c1 : Z)
| NLeaf (l : leaf)
| NFree (next : Z)
| NLastFree (next : Z).

(** SlabHeader and the node array, [critbit.rs:254-264] *)
Record slab := mkSlab {
  s_bump : Z; s_free_len : Z; s_free_head : Z; s_root : Z; s_leafs : Z;
  s_nodes : list node
}.

(** LeafNode::price, [critbit.rs:90-93]; [None] is the failing [unwrap]. *)
Definition l_price (l : leaf) : Z := l_key l / B64.
Definition leaf_price (l : leaf) : res Z :=
  if l_price l =? 0 then Panic else Ok (l_price l).
(** LeafNode::set_quantity, [critbit.rs:105-108] *)
Definition set_qty (l : leaf) (q : Z) : leaf :=
  mkLeaf (l_slot l) (l_tier l) (l_key l) (l_owner l) q (l_cid l).

(** [(1u128 << 127) >> n] *)
Definition crit_mask (n : Z) : Z := Z.shiftr 170141183460469231731687303715884105728 n.
(** InnerNode::walk_down, [critbit.rs:42-47] *)
Definition crit_bit (plen key : Z) : bool := negb (Z.land key (crit_mask plen) =? 0).
Definition child (c0 c1 : Z) (b : bool) : Z := if b then c1 else c0.
(** u128::leading_zeros *)
Definition leading_zeros (x : Z) : Z := if x =? 0 then 128 else 127 - Z.log2 x.

(** A zero-initialised account of [cap] nodes, as created by the runtime and accepted by
    [Slab::new], [critbit.rs:296-305]. *)
Definition slab_new (cap : nat) : slab := mkSlab 0 0 0 0 0 (repeat NUninit cap).
(** [critbit.rs:307-313] *)
Definition assert_minimum_capacity (s : slab) (cap : Z) : res unit :=
  if zlen (s_nodes s) <=? cap * 2 then Err ESlabTooSmall else Ok tt.

(** SlabView::get, [critbit.rs:404-420]: live (inner or leaf) nodes only. *)
Definition slab_get (s : slab) (h : Z) : option node :=
  match znth (s_nodes s) h with
  | Some (NInner p k a b) => Some (NInner p k a b)
  | Some (NLeaf l) => Some (NLeaf l)
  | _ => None
  end.
(** Writing through [get_mut]. *)
Definition slab_set (s : slab) (h : Z) (n : node) : slab :=
  mkSlab (s_bump s) (s_free_len s) (s_free_head s) (s_root s) (s_leafs s) (zupd (s_nodes s) h n).
Definition node_key (n : node) : option Z :=
  match n with NInner _ k _ _ => Some k | NLeaf l => Some (l_key l) | _ => None end.

(** SlabView::insert, [critbit.rs:422-463].  [Ok None] is the Rust [Err(())]. *)
Definition slab_insert (s : slab) (n : node) : res (option (slab * Z)) :=
  match n with
  | NInner _ _ _ _ | NLeaf _ =>
      if s_free_len s =? 0 then
        if s_bump s =? zlen (s_nodes s) then Ok None
        else if s_bump s =? 4294967295 then Ok None
        else
          let key := s_bump s mod 4294967296 in
          match znth (s_nodes s) key with
          | None => Panic
          | Some _ =>
            Ok (Some (mkSlab (w64 (s_bump s + 1)) (s_free_len s) (s_free_head s) (s_root s)
                             (s_leafs s) (zupd (s_nodes s) key n), key))
          end
      else
        let key := s_free_head s in
        let take next := Ok (Some (mkSlab (s_bump s) (w64 (s_free_len s - 1)) next (s_root s)
                                          (s_leafs s) (zupd (s_nodes s) key n), key)) in
        match znth (s_nodes s) key with
        | Some (NFree next) => if 1 <? s_free_len s then take next else Panic
        | Some (NLastFree next) => if s_free_len s =? 1 then take next else Panic
        | _ => Panic
        end
  | _ => Panic
  end.

(** SlabView::remove, [critbit.rs:465-482] *)
Definition slab_remove (s : slab) (h : Z) : option (slab * node) :=
  match slab_get s h with
  | None => None
  | Some v =>
      let f := if s_free_len s =? 0 then NLastFree (s_free_head s) else NFree (s_free_head s) in
      Some (mkSlab (s_bump s) (w64 (s_free_len s + 1)) h (s_root s) (s_leafs s)
                   (zupd (s_nodes s) h f), v)
  end.

(** [critbit.rs:495-501] *)
Definition slab_root (s : slab) : option Z :=
  if s_leafs s =? 0 then None else Some (s_root s).

(** Fuel for tree walks: the depth of a crit-bit tree over 128-bit keys is at most 129. *)
Definition depth_fuel : nat := 130.

(** [critbit.rs:503-516] *)
Fixpoint find_min_max_loop (fuel : nat) (s : slab) (find_max : bool) (root : Z) : res Z :=
  match fuel with
  | O => Panic
  | S f =>
      match slab_get s root with
      | Some (NInner _ _ c0 c1) => find_min_max_loop f s find_max (child c0 c1 find_max)
      | Some (NLeaf _) => Ok root
      | _ => Panic
      end
  end.
Definition find_min_max (s : slab) (find_max : bool) : res (option Z) :=
  match slab_root s with
  | None => Ok None
  | Some r => h <- find_min_max_loop depth_fuel s find_max r ;; Ok (Some h)
  end.
(** [critbit.rs:518-526] *)
Definition find_min (s : slab) := find_min_max s false.
Definition find_max (s : slab) := find_min_max s true.

Inductive insert_out :=
| Inserted (h : Z) (old : option leaf)
| OutOfSpace.

Definition set_root_leafs (s : slab) (root leafs : Z) : slab :=
  mkSlab (s_bump s) (s_free_len s) (s_free_head s) root leafs (s_nodes s).

(** Slab::insert_leaf, [critbit.rs:528-600].  The slab is returned in the out-of-space case too,
    because a half-done insertion is undone by pushing a node on the free list. *)
Fixpoint insert_loop (fuel : nat) (s : slab) (new : leaf) (root : Z) : res (slab * insert_out) :=
  match fuel with
  | O => Panic
  | S f =>
      contents <- unwrap (slab_get s root) ;;
      root_key <- unwrap (node_key contents) ;;
      let split_here (_ : unit) :=
        let shared := leading_zeros (Z.lxor root_key (l_key new)) in
        let new_bit := negb (Z.land (crit_mask shared) (l_key new) =? 0) in
        o1 <- slab_insert s (NLeaf new) ;;
        match o1 with
        | None => Ok (s, OutOfSpace)
        | Some (s1, new_h) =>
            o2 <- slab_insert s1 contents ;;
            match o2 with
            | None =>
                '(s2, _) <- unwrap (slab_remove s1 new_h) ;;
                Ok (s2, OutOfSpace)
            | Some (s2, moved_h) =>
                _ <- unwrap (slab_get s2 root) ;;
                let inner :=
                  if new_bit then NInner shared (l_key new) moved_h new_h
                  else NInner shared (l_key new) new_h moved_h in
                let s3 := slab_set s2 root inner in
                Ok (set_root_leafs s3 (s_root s3) (w64 (s_leafs s3 + 1)), Inserted new_h None)
            end
        end in
      match contents with
      | NLeaf old =>
          if l_key old =? l_key new then
            Ok (slab_set s root (NLeaf new), Inserted root (Some old))
          else split_here tt
      | NInner plen key c0 c1 =>
          if plen <=? leading_zeros (Z.lxor root_key (l_key new)) then
            insert_loop f s new (child c0 c1 (crit_bit plen (l_key new)))
          else split_here tt
      | _ => Panic
      end
  end.

Definition insert_leaf (s : slab) (new : leaf) : res (slab * insert_out) :=
  match slab_root s with
  | None =>
      o <- slab_insert s (NLeaf new) ;;
      match o with
      | Some (s1, h) => Ok (set_root_leafs s1 h 1, Inserted h None)
      | None => Ok (s, OutOfSpace)
      end
  | Some r => insert_loop depth_fuel s new r
  end.

(** Slab::find_by, [critbit.rs:625-669].  [limit] (u16) is the fuel; the result is the list of
    found keys and the remaining limit.  The head of [stack] is the top of the Rust vector. *)
Fixpoint find_by_loop (limit : nat) (s : slab) (p : leaf -> bool) (stack found : list Z)
  : list Z * nat :=
  match limit, stack with
  | S n, h :: rest =>
      match slab_get s h with
      | Some (NLeaf l) => find_by_loop n s p rest (if p l then found ++ [l_key l] else found)
      | Some (NInner _ _ c0 c1) => find_by_loop n s p (c1 :: c0 :: rest) found
      | _ => (found, n)
      end
  | _, _ => (found, limit)
  end.
Definition find_by (s : slab) (limit : nat) (p : leaf -> bool) : list Z * nat :=
  match slab_root s with
  | None => ([], limit)
  | Some r => find_by_loop limit s p [r] []
  end.

(** Walking down to the leaf in remove_by_key, [critbit.rs:693-708]: returns parent, child and
    the last critical bit, or [None] when the key is absent. *)
Fixpoint remove_walk (fuel : nat) (s : slab) (k : Z) (parent ch : Z) (bit : bool)
  : res (option (Z * Z * bool)) :=
  match fuel with
  | O => Panic
  | S f =>
      match slab_get s ch with
      | Some (NInner plen _ c0 c1) =>
          let b := crit_bit plen k in remove_walk f s k ch (child c0 c1 b) b
      | Some (NLeaf l) => if l_key l =? k then Ok (Some (parent, ch, bit)) else Ok None
      | _ => Panic
      end
  end.

(** Slab::remove_by_key, [critbit.rs:671-717] *)
Definition remove_by_key (s : slab) (k : Z) : res (slab * option leaf) :=
  match slab_root s with
  | None => Ok (s, None)
  | Some root =>
      match slab_get s root with
      | Some (NLeaf l) =>
          if l_key l =? k then
            if s_leafs s =? 1 then
              '(s1, _) <- unwrap (slab_remove (set_root_leafs s 0 0) root) ;;
              Ok (s1, Some l)
            else Panic
          else Ok (s, None)
      | Some (NInner plen _ c0 c1) =>
          let b := crit_bit plen k in
          o <- remove_walk depth_fuel s k root (child c0 c1 b) b ;;
          match o with
          | None => Ok (s, None)
          | Some (parent, ch, bit) =>
              match slab_get s parent with
              | Some (NInner _ _ p0 p1) =>
                  '(s1, other) <- unwrap (slab_remove s (child p0 p1 (negb bit))) ;;
                  _ <- unwrap (slab_get s1 parent) ;;
                  let s2 := slab_set s1 parent other in
                  let s3 := set_root_leafs s2 (s_root s2) (w64 (s_leafs s2 - 1)) in
                  '(s4, v) <- unwrap (slab_remove s3 ch) ;;
                  match v with
                  | NLeaf l => Ok (s4, Some l)
                  | _ => Panic
                  end
              | _ => Panic
              end
          end
      | _ => Panic
      end
  end.

(** Slab::remove_min / remove_max, [critbit.rs:719-727] *)
Definition remove_extreme (s : slab) (mx : bool) : res (slab * option leaf) :=
  o <- find_min_max s mx ;;
  match o with
  | None => Ok (s, None)
  | Some h =>
      match slab_get s h with
      | Some n => match node_key n with
                  | Some k => remove_by_key s k
                  | None => Ok (s, None)
                  end
      | None => Ok (s, None)
      end
  end.
Definition remove_min (s : slab) := remove_extreme s false.
Definition remove_max (s : slab) := remove_extreme s true.

(** [get_mut(h).unwrap().as_leaf_mut().unwrap()] as used by matching.rs, [critbit.rs:413-420, 222-228] *)
Definition get_leaf (s : slab) (h : Z) : res leaf :=
  match slab_get s h with Some (NLeaf l) => Ok l | _ => Panic end.
