(** Model of the ring buffer of dex/src/state.rs:749-868 (event queue and request queue). *)
From Verif Require Import Base.

(** QueueHeader + buffer, [state.rs:763-766].  [q_seq] is the [seq_num] counter of the event queue
    header ([state.rs:1107-1112]); the request queue's hooks do nothing, [state.rs:898-901]. *)
Record queue (A : Type) := mkQueue { q_head : Z; q_count : Z; q_seq : Z; q_buf : list A }.
Arguments mkQueue {A}.
Arguments q_head {A}. Arguments q_count {A}. Arguments q_seq {A}. Arguments q_buf {A}.

Section Q.
Context {A : Type}.

(** [state.rs:774-787] *)
Definition q_len (q : queue A) : Z := q_count q.
Definition q_full (q : queue A) : bool := q_count q =? zlen (q_buf q).
Definition q_empty (q : queue A) : bool := q_count q =? 0.

(** [% self.buf.len()]; a zero divisor panics. *)
Definition rem_len (x n : Z) : res Z := if n =? 0 then Panic else Ok (x mod n).

(** Queue::push_back with EventQueueHeader, [state.rs:789-802, 1130-1132].
    [Ok None] is the Rust [Err(value)]. *)
Definition push_back (q : queue A) (v : A) : res (option (queue A)) :=
  if q_full q then Ok None
  else
    slot <- rem_len (wadd (q_head q) (q_count q)) (zlen (q_buf q)) ;;
    _ <- unwrap (znth (q_buf q) slot) ;;
    Ok (Some (mkQueue (q_head q) (wadd (q_count q) 1) (wadd (q_seq q) 1) (zupd (q_buf q) slot v))).

(** Queue::peek_front, [state.rs:804-810] *)
Definition peek_front (q : queue A) : res (option A) :=
  if q_empty q then Ok None
  else v <- unwrap (znth (q_buf q) (q_head q)) ;; Ok (Some v).

(** Queue::pop_front, [state.rs:820-834]; [Ok None] is the Rust [Err(())]. *)
Definition pop_front (q : queue A) : res (option (queue A * A)) :=
  if q_empty q then Ok None
  else
    v <- unwrap (znth (q_buf q) (q_head q)) ;;
    hd <- rem_len (wadd (q_head q) 1) (zlen (q_buf q)) ;;
    Ok (Some (mkQueue hd (wsub (q_count q) 1) (q_seq q) (q_buf q), v)).

(** Queue::revert_pushes, [state.rs:836-843, 1133-1135] *)
Definition revert_pushes (q : queue A) (n : Z) : res (queue A) :=
  _ <- check (n <=? q_count q) EAssert ;;
  Ok (mkQueue (q_head q) n (wsub (q_seq q) (wsub (q_count q) n)) (q_buf q)).

(** Queue::iter, [state.rs:845-870]; [fuel] is the number of remaining items. *)
Fixpoint iter_from (fuel : nat) (q : queue A) (index : Z) : res (list A) :=
  match fuel with
  | O => Ok []
  | S f =>
      if index =? q_count q then Ok []
      else
        slot <- rem_len (wadd (q_head q) index) (zlen (q_buf q)) ;;
        v <- unwrap (znth (q_buf q) slot) ;;
        r <- iter_from f q (index + 1) ;;
        Ok (v :: r)
  end.
Definition q_iter (q : queue A) : res (list A) := iter_from (Z.to_nat (q_count q)) q 0.

End Q.

(** RequestQueue: only the header counter matters, [state.rs:873-921]. *)
Definition wnot (x : Z) : Z := B64 - 1 - x.
(** gen_seq_num, [state.rs:916-920] *)
Definition gen_seq_num (next : Z) : Z * Z := (next, wadd next 1).
(** gen_order_id, [state.rs:906-914] *)
Definition gen_order_id (next : Z) (price : Z) (sd : side) : Z * Z :=
  let (seq, next') := gen_seq_num next in
  let lower := match sd with Bid => wnot seq | Ask => seq end in
  (Z.lor (Z.shiftl price 64) lower, next').
