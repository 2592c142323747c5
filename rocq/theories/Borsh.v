(** The Borsh encoding (borsh 0.9.3, external) of the types the pool program uses. *)
From Verif Require Import Base Instr.

Definition parser (A : Type) := bytes -> option (A * bytes).
Definition pbind {A B} (p : parser A) (f : A -> parser B) : parser B :=
  fun b => match p b with Some (x, r) => f x r | None => None end.
Definition pret {A} (x : A) : parser A := fun b => Some (x, b).
Definition pfail {A} : parser A := fun _ => None.
Notation "x <~ p ;; k" := (pbind p (fun x => k)) (at level 61, p at next level, right associativity).

(** u8, u32, u64: little endian *)
Definition get_num (n : nat) : parser Z := fun b => if (n <=? length b)%nat then Some (unle (firstn n b), skipn n b) else None.
(** [u8; 32] *)
Definition get_key : parser Z := fun b => if (32 <=? length b)%nat then Some (key_unle b 0, skipn 32 b) else None.
Definition get_raw (n : nat) : parser bytes := fun b => if (n <=? length b)%nat then Some (firstn n b, skipn n b) else None.
(** bool and the tag of Option: any byte other than 0 and 1 is refused *)
Definition get_bool : parser bool := t <~ get_num 1 ;; if t =? 0 then pret false else if t =? 1 then pret true else pfail.
Definition get_option {A} (p : parser A) : parser (option A) :=
  t <~ get_num 1 ;; if t =? 0 then pret None else if t =? 1 then (x <~ p ;; pret (Some x)) else pfail.
Fixpoint get_many {A} (n : nat) (p : parser A) : parser (list A) :=
  match n with O => pret [] | S k => x <~ p ;; r <~ get_many k p ;; pret (x :: r) end.
(** Vec: a u32 length, then the elements *)
Definition get_vec {A} (p : parser A) : parser (list A) := n <~ get_num 4 ;; get_many (Z.to_nat n) p.
Definition get_bytes : parser bytes := n <~ get_num 4 ;; get_raw (Z.to_nat n).
(** A type declared with declare_tag!, [pool/schema/src/schema.rs:37-68] *)
Definition get_tag (v : Z) : parser unit := t <~ get_num 8 ;; if t =? v then pret tt else pfail.
(** try_from_slice: nothing may be left over *)
Definition whole {A} (p : parser A) (b : bytes) : option A := match p b with Some (x, []) => Some x | _ => None end.

Definition put_bool (x : bool) : bytes := le 1 (if x then 1 else 0).
Definition put_option {A} (f : A -> bytes) (o : option A) : bytes := match o with Some x => le 1 1 ++ f x | None => le 1 0 end.
Definition put_vec {A} (f : A -> bytes) (l : list A) : bytes := le 4 (zlen l) ++ flat_map f l.
Definition put_bytes (b : bytes) : bytes := le 4 (zlen b) ++ b.
