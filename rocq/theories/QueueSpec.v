(** Specification of the queues: a plain list of bounded length. *)
From Verif Require Import Base Queue.

Section Q.
Context {A : Type}.
Inductive qop := QPush (v : A) | QPop | QPeek | QRevert (n : Z) | QIter.
Inductive qout :=
| QPushed | QFull | QItem (o : option A) | QReverted | QRefused | QItems (l : list A).

(** The modelled ring buffer. *)
Definition qstep (q : queue A) (o : qop) : res (queue A * qout) :=
  match o with
  | QPush v => r <- push_back q v ;; Ok (match r with Some q' => (q', QPushed) | None => (q, QFull) end)
  | QPop => r <- pop_front q ;; Ok (match r with Some (q', v) => (q', QItem (Some v)) | None => (q, QItem None) end)
  | QPeek => r <- peek_front q ;; Ok (q, QItem r)
  | QRevert n => match revert_pushes q n with Ok q' => Ok (q', QReverted) | Err _ => Ok (q, QRefused) | Panic => Panic end
  | QIter => l <- q_iter q ;; Ok (q, QItems l)
  end.
Fixpoint qrun (q : queue A) (ops : list qop) : res (queue A * list qout) :=
  match ops with
  | [] => Ok (q, [])
  | o :: r => '(q1, x) <- qstep q o ;; '(q2, xs) <- qrun q1 r ;; Ok (q2, x :: xs)
  end.
(** The plain list. *)
Definition lstep (cap : Z) (l : list A) (o : qop) : list A * qout :=
  match o with
  | QPush v => if zlen l <? cap then (l ++ [v], QPushed) else (l, QFull)
  | QPop => match l with [] => ([], QItem None) | v :: r => (r, QItem (Some v)) end
  | QPeek => (l, QItem (hd_error l))
  | QRevert n => if n <=? zlen l then (firstn (Z.to_nat n) l, QReverted) else (l, QRefused)
  | QIter => (l, QItems l)
  end.
Fixpoint lrun (cap : Z) (l : list A) (ops : list qop) : list A * list qout :=
  match ops with
  | [] => (l, [])
  | o :: r => let (l1, x) := lstep cap l o in let (l2, xs) := lrun cap l1 r in (l2, x :: xs)
  end.
(** How many of the operations popped an item. *)
Fixpoint popped (ops : list qop) (outs : list qout) : Z :=
  match ops, outs with
  | QPop :: r, QItem (Some _) :: xs => 1 + popped r xs
  | _ :: r, _ :: xs => popped r xs
  | _, _ => 0
  end.
(** Reverting takes an unsigned length. *)
Definition qop_ok (o : qop) : Prop := match o with QRevert n => 0 <= n | _ => True end.
Definition q_blank (buf : list A) : queue A := mkQueue 0 0 0 buf.
End Q.
