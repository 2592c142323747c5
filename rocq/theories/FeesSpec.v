(** Independent specification of the fee schedule (used by the property theorems only). *)
From Verif Require Import Base Fees.

(** The published schedule, in tenths of a basis point (1/100000). *)
Definition published_rate (t : tier) : Z :=
  match t with
  | TBase => 40 | SRM2 => 39 | SRM3 => 38 | SRM4 => 36
  | SRM5 => 34 | SRM6 => 32 | MSRM => 30 | Stable => 10
  end.

(** The published rate as a 64.64 fixed-point number, rounded down: the largest [r] with
    [r / 2^64 <= rate / 100000]. *)
Definition is_fixed_rate (t : tier) (r : Z) : Prop :=
  r * 100000 <= published_rate t * 2 ^ 64 < (r + 1) * 100000.

(** [y] is [x] times [r/2^64] rounded up to an integer. *)
Definition rounded_up (x r y : Z) : Prop :=
  x * r <= y * 2 ^ 64 /\ forall z, x * r <= z * 2 ^ 64 -> y <= z.

(** SRM holdings (6 decimals) needed for the discount tiers. *)
Definition srm_threshold (t : tier) : option Z :=
  match t with
  | TBase => Some 0
  | SRM2 => Some (100 * 10 ^ 6)
  | SRM3 => Some (1000 * 10 ^ 6)
  | SRM4 => Some (10000 * 10 ^ 6)
  | SRM5 => Some (100000 * 10 ^ 6)
  | SRM6 => Some (1000000 * 10 ^ 6)
  | MSRM | Stable => None
  end.
