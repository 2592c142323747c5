(** When the program may abort.  Nothing here is part of the program. *)
From Verif Require Import Base Core Instr Market Store Process StoreProofs World WorldSpec TakeSpec ReplaceErrorSpec.

(** No token account and no balance of a trader has reached 2^59, and no lamport balance 2^60. *)
Definition amounts_small (e : env) (s : store) : Prop :=
  (forall v t, token_at s v = Some t -> t_amount t < 2 ^ 59) /\
  (forall x oo, dexd e s x = Some (DOO oo) -> oo_coin_total oo < 2 ^ 59 /\ oo_pc_total oo < 2 ^ 59) /\
  (forall x, a_lamports (sget s x) < 2 ^ 60).
(** Instructions that the program no longer knows. *)
Definition removed (i : instr) : Prop :=
  match i with INewOrder _ | ICancelOrder _ _ _ _ | ICancelByCidOld _ | INewOrderV2 _ _ => True | _ => False end.
(** An unused account of the program that has not the size of an open-orders account. *)
Definition misshapen (e : env) (s : store) (x : Z) : Prop := dexd e s x = Some DZero /\ a_len (sget s x) <> 3228.
(** Where the instruction expects the open-orders account. *)
Definition orders_place (i : instr) : option nat :=
  match i with
  | INewOrderV3 _ | IReplaceOne _ | IReplaceMany _ | ISettleFunds => Some 1%nat
  | ICancelV2 _ _ | ICancelByCid _ | ICancelByCids _ => Some 3%nat
  | ICloseOO | IInitOO => Some 0%nat
  | IPrune _ => Some 4%nat
  | _ => None
  end.
(** The only reasons to abort. *)
Definition abort_reason (e : env) (s : store) (i : instr) (ms : list meta) : Prop :=
  removed i \/
  ((exists ixs, replaces i ixs) /\ (length ms < 8)%nat) \/
  (exists n x, orders_place i = Some n /\ key_at ms n = Some x /\ misshapen e s x) \/
  (exists ix k m, i = ISendTake ix /\ key_at ms 0 = Some k /\ dexd e s k = Some (DMarket m) /\ ti_side ix = Ask /\ B64 <= ti_qty ix * m_coin_lot m).
