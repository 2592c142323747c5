(** The bytes of an instruction, written down as a table of field widths and values, apart from the code that packs and
    reads them.  Nothing here is part of the program. *)
From Verif Require Import Base Fees Codec Core Instr.

(** The number that some bytes stand for, least significant byte first. *)
Fixpoint value (b : list Z) : Z := match b with [] => 0 | x :: r => x + 256 * value r end.
(** [b] consists of these fields, one after the other: so many bytes standing for that number. *)
Fixpoint written (fs : list (nat * Z)) (b : list Z) : Prop :=
  match fs with
  | [] => b = []
  | (n, z) :: r => exists x y, b = x ++ y /\ length x = n /\ value x = z /\ written r y
  end.

Definition side_number (sd : side) : Z := match sd with Bid => 0 | Ask => 1 end.
Definition type_number (ot : order_type) : Z := match ot with Limit => 0 | ImmediateOrCancel => 1 | PostOnly => 2 end.
Definition self_number (st : self_trade) : Z := match st with DecrementTake => 0 | CancelProvide => 1 | AbortTransaction => 2 end.
Definition tier_number (t : tier) : Z := match t with TBase => 0 | SRM2 => 1 | SRM3 => 2 | SRM4 => 3 | SRM5 => 4 | SRM6 => 5 | MSRM => 6 | Stable => 7 end.
(** Two's complement *)
Definition time_number (t : Z) : Z := if t <? 0 then t + 2 ^ 64 else t.
(** A public key is four words, and here a number with the first word as its most significant digit. *)
Definition key_words (k : Z) : list (nat * Z) := [(8%nat, k / 2 ^ 192); (8%nat, k / 2 ^ 128 mod 2 ^ 64); (8%nat, k / 2 ^ 64 mod 2 ^ 64); (8%nat, k mod 2 ^ 64)].

Definition order_fields (x : order_ix) : list (nat * Z) :=
  [(4%nat, side_number (oi_side x)); (8%nat, oi_price x); (8%nat, oi_qty x); (8%nat, oi_pc x); (4%nat, self_number (oi_st x)); (4%nat, type_number (oi_ot x)); (8%nat, oi_cid x); (2%nat, oi_limit x); (8%nat, time_number (oi_max_ts x))].
Definition old_fields (x : old_ix) : list (nat * Z) :=
  [(4%nat, side_number (od_side x)); (8%nat, od_price x); (8%nat, od_qty x); (4%nat, type_number (od_ot x)); (8%nat, od_cid x)].
(** The number of the instruction and its fields *)
Definition content (i : instr) : Z * list (nat * Z) :=
  match i with
  | IInitMarket x => (0, [(8%nat, ii_coin_lot x); (8%nat, ii_pc_lot x); (2%nat, ii_fee_rate x); (8%nat, ii_nonce x); (8%nat, ii_dust x)])
  | INewOrder x => (1, old_fields x)
  | IMatchOrders limit => (2, [(2%nat, limit)])
  | IConsumeEvents limit => (3, [(2%nat, limit)])
  | ICancelOrder sd id owner slot => (4, [(4%nat, side_number sd); (16%nat, id)] ++ key_words owner ++ [(1%nat, slot)])
  | ISettleFunds => (5, [])
  | ICancelByCidOld cid => (6, [(8%nat, cid)])
  | IDisableMarket => (7, [])
  | ISweepFees => (8, [])
  | INewOrderV2 x st => (9, old_fields x ++ [(4%nat, self_number st)])
  | INewOrderV3 x => (10, order_fields x)
  | ICancelV2 sd id => (11, [(4%nat, side_number sd); (16%nat, id)])
  | ICancelByCid cid => (12, [(8%nat, cid)])
  | ISendTake x => (13, [(4%nat, side_number (ti_side x)); (8%nat, ti_price x); (8%nat, ti_qty x); (8%nat, ti_pc x); (8%nat, ti_min_coin x); (8%nat, ti_min_pc x); (2%nat, ti_limit x)])
  | ICloseOO => (14, [])
  | IInitOO => (15, [])
  | IPrune limit => (16, [(2%nat, limit)])
  | IConsumePermissioned limit => (17, [(2%nat, limit)])
  | ICancelByCids cids => (18, map (fun c => (8%nat, c)) cids)
  | IReplaceOne x => (19, order_fields x)
  | IReplaceMany xs => (20, (8%nat, Z.of_nat (length xs)) :: concat (map order_fields xs))
  end.
(** Version 0, the number, the fields *)
Definition wire (i : instr) : list (nat * Z) := (1%nat, 0) :: (4%nat, fst (content i)) :: snd (content i).
(** What may be left off at the end: no time limit, and client ids of zero. *)
Definition left_off (i : instr) (pad : list Z) : Prop :=
  pad = [] \/
  match i with
  | INewOrderV3 x => oi_max_ts x = 2 ^ 63 - 1 /\ pad = [255; 255; 255; 255; 255; 255; 255; 127]
  | ICancelByCids _ => exists n, pad = repeat 0 (8 * n)
  | _ => False
  end.
