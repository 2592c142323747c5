(** Model of dex/src/instruction.rs: the instruction type and its byte encoding. *)
From Verif Require Import Base Codec Core.

Definition bytes := list Z.
(** [to_le_bytes] / [from_le_bytes] *)
Fixpoint le (n : nat) (z : Z) : bytes := match n with O => [] | S k => z mod 256 :: le k (z / 256) end.
Fixpoint unle (b : bytes) : Z := match b with [] => 0 | x :: r => x + 256 * unle r end.
(** The field of [n] bytes at offset [off], [array_refs!]. *)
Definition num (b : bytes) (off n : nat) : Z := unle (firstn n (skipn off b)).
(** A key [[u64;4]] as 32 bytes; a key is the number whose base-2^64 digits, most significant first,
    are the four words. *)
Definition key_le (k : Z) : bytes :=
  le 8 (k / (B64 * B64 * B64)) ++ le 8 (k / (B64 * B64) mod B64) ++ le 8 (k / B64 mod B64) ++ le 8 (k mod B64).
Definition key_unle (b : bytes) (off : nat) : Z :=
  ((num b off 8 * B64 + num b (off + 8) 8) * B64 + num b (off + 16) 8) * B64 + num b (off + 24) 8.

(** InitializeMarketInstruction, [instruction.rs:46-60] *)
Record init_ix := mkInitIx { ii_coin_lot : Z; ii_pc_lot : Z; ii_fee_rate : Z; ii_nonce : Z; ii_dust : Z }.
(** NewOrderInstructionV1, [instruction.rs:153-169]; V2 adds the self-trade behaviour,
    [instruction.rs:134-151] *)
Record old_ix := mkOldIx { od_side : side; od_price : Z; od_qty : Z; od_ot : order_type; od_cid : Z }.

(** MarketInstruction, [instruction.rs:327-516] *)
Inductive instr :=
| IInitMarket (ix : init_ix)
| INewOrder (ix : old_ix)
| IMatchOrders (limit : Z)
| IConsumeEvents (limit : Z)
| ICancelOrder (sd : side) (id owner slot : Z)
| ISettleFunds
| ICancelByCidOld (cid : Z)
| IDisableMarket
| ISweepFees
| INewOrderV2 (ix : old_ix) (st : self_trade)
| INewOrderV3 (ix : order_ix)
| ICancelV2 (sd : side) (id : Z)
| ICancelByCid (cid : Z)
| ISendTake (ix : take_ix)
| ICloseOO
| IInitOO
| IPrune (limit : Z)
| IConsumePermissioned (limit : Z)
| ICancelByCids (cids : list Z)
| IReplaceOne (ix : order_ix)
| IReplaceMany (ixs : list order_ix).

(** The enum encodings: side and order type, [matching.rs:44-59]; self-trade, [instruction.rs:67-72]. *)
Definition side_to (s : side) : Z := match s with Bid => 0 | Ask => 1 end.
Definition side_from (z : Z) : option side := if z =? 0 then Some Bid else if z =? 1 then Some Ask else None.
Definition ot_to (o : order_type) : Z := match o with Limit => 0 | ImmediateOrCancel => 1 | PostOnly => 2 end.
Definition ot_from (z : Z) : option order_type :=
  if z =? 0 then Some Limit else if z =? 1 then Some ImmediateOrCancel else if z =? 2 then Some PostOnly else None.
(** [NonZeroU64::new] *)
Definition nonzero (z : Z) : option Z := if z =? 0 then None else Some z.
(** [i64::from_le_bytes] *)
Definition i64_of (u : Z) : Z := if u <? I64_MAX + 1 then u else u - B64.

Definition obind {A B} (x : option A) (f : A -> option B) : option B := match x with Some a => f a | None => None end.
Local Notation "x <-? e ;; k" := (obind e (fun x => k)) (at level 61, e at next level, right associativity).

(** [instruction.rs:226-267] *)
Definition unpack_v3 (b : bytes) : option order_ix :=
  sd <-? side_from (num b 0 4) ;;
  price <-? nonzero (num b 4 8) ;;
  qty <-? nonzero (num b 12 8) ;;
  pc <-? nonzero (num b 20 8) ;;
  st <-? st_of_u8 (num b 28 4) ;;
  ot <-? ot_from (num b 32 4) ;;
  Some (mkOrderIx sd price qty pc st ot (num b 36 8) (num b 44 2) (i64_of (num b 46 8))).
(** [instruction.rs:193-222] *)
Definition unpack_take (b : bytes) : option take_ix :=
  sd <-? side_from (num b 0 4) ;;
  price <-? nonzero (num b 4 8) ;;
  qty <-? nonzero (num b 12 8) ;;
  pc <-? nonzero (num b 20 8) ;;
  Some (mkTakeIx sd price qty pc (num b 28 8) (num b 36 8) (num b 44 2)).
(** [instruction.rs:271-295] *)
Definition unpack_v1 (b : bytes) : option old_ix :=
  sd <-? side_from (num b 0 4) ;;
  price <-? nonzero (num b 4 8) ;;
  qty <-? nonzero (num b 12 8) ;;
  ot <-? ot_from (num b 20 4) ;;
  Some (mkOldIx sd price qty ot (num b 24 8)).
(** [chunks_exact(54)] mapped with unpack and collected, [instruction.rs:630-637] *)
Fixpoint unpack_chunks (n : nat) (b : bytes) : option (list order_ix) :=
  match n with
  | O => Some []
  | S k => x <-? unpack_v3 (firstn 54 b) ;; r <-? unpack_chunks k (skipn 54 b) ;; Some (x :: r)
  end.
(** [instruction.rs:611-619]: the ids given, then zeros. *)
Fixpoint unpack_cids (n : nat) (b : bytes) : list Z :=
  match n with O => [] | S k => num b 0 8 :: unpack_cids k (skipn 8 b) end.

(** MarketInstruction::unpack, [instruction.rs:523-653] *)
Definition unpack (b : bytes) : option instr :=
  if (zlen b <? 5) || (5 + 8 + 54 * 8 <? zlen b) then None
  else if negb (num b 0 1 =? 0) then None
  else
    let d := num b 1 4 in
    let data := skipn 5 b in
    let len := zlen data in
    if (d =? 0) && (len =? 34) then
      Some (IInitMarket (mkInitIx (num data 0 8) (num data 8 8) (num data 16 2) (num data 18 8) (num data 26 8)))
    else if (d =? 1) && (len =? 32) then x <-? unpack_v1 data ;; Some (INewOrder x)
    else if (d =? 2) && (len =? 2) then Some (IMatchOrders (num data 0 2))
    else if (d =? 3) && (len =? 2) then Some (IConsumeEvents (num data 0 2))
    else if (d =? 4) && (len =? 53) then
      sd <-? side_from (num data 0 4) ;; Some (ICancelOrder sd (num data 4 16) (key_unle data 20) (num data 52 1))
    else if (d =? 5) && (len =? 0) then Some ISettleFunds
    else if (d =? 6) && (len =? 8) then Some (ICancelByCidOld (num data 0 8))
    else if (d =? 7) && (len =? 0) then Some IDisableMarket
    else if (d =? 8) && (len =? 0) then Some ISweepFees
    else if (d =? 9) && (len =? 36) then
      x <-? unpack_v1 (firstn 32 data) ;; st <-? st_of_u8 (num data 32 4) ;; Some (INewOrderV2 x st)
    else if (d =? 10) && ((len =? 46) || (len =? 54)) then
      x <-? unpack_v3 (if len =? 46 then data ++ le 8 I64_MAX else data) ;; Some (INewOrderV3 x)
    else if (d =? 11) && (len =? 20) then sd <-? side_from (num data 0 4) ;; Some (ICancelV2 sd (num data 4 16))
    else if (d =? 12) && (len =? 8) then Some (ICancelByCid (num data 0 8))
    else if (d =? 13) && (len =? 46) then x <-? unpack_take data ;; Some (ISendTake x)
    else if (d =? 14) && (len =? 0) then Some ICloseOO
    else if (d =? 15) && (len =? 0) then Some IInitOO
    else if (d =? 16) && (len =? 2) then Some (IPrune (num data 0 2))
    else if (d =? 17) && (len =? 2) then Some (IConsumePermissioned (num data 0 2))
    else if (d =? 18) && ((len mod 8 =? 0) && (len <=? 64)) then
      let n := Z.to_nat (len / 8) in Some (ICancelByCids (unpack_cids n data ++ repeat 0 (8 - n)))
    else if (d =? 19) && (len =? 54) then x <-? unpack_v3 data ;; Some (IReplaceOne x)
    else if (d =? 20) && ((len mod 54 =? 8) && (len <=? 8 + 8 * 54)) then
      if negb (num data 0 8 =? (len - 8) / 54) then None
      else xs <-? unpack_chunks (Z.to_nat ((len - 8) / 54)) (skipn 8 data) ;; Some (IReplaceMany xs)
    else None.

(** MarketInstruction::pack, [instruction.rs:519-521]: bincode's fixed-width little-endian layout of
    the tuple (0u8, self): enum tags are u32, sequences carry a u64 length, arrays do not. *)
Definition pack_v3 (x : order_ix) : bytes :=
  le 4 (side_to (oi_side x)) ++ le 8 (oi_price x) ++ le 8 (oi_qty x) ++ le 8 (oi_pc x) ++ le 4 (st_to_u8 (oi_st x)) ++
  le 4 (ot_to (oi_ot x)) ++ le 8 (oi_cid x) ++ le 2 (oi_limit x) ++ le 8 (oi_max_ts x mod B64).
Definition pack_take (x : take_ix) : bytes :=
  le 4 (side_to (ti_side x)) ++ le 8 (ti_price x) ++ le 8 (ti_qty x) ++ le 8 (ti_pc x) ++ le 8 (ti_min_coin x) ++
  le 8 (ti_min_pc x) ++ le 2 (ti_limit x).
Definition pack_v1 (x : old_ix) : bytes :=
  le 4 (side_to (od_side x)) ++ le 8 (od_price x) ++ le 8 (od_qty x) ++ le 4 (ot_to (od_ot x)) ++ le 8 (od_cid x).
Definition tag (i : instr) : Z :=
  match i with
  | IInitMarket _ => 0 | INewOrder _ => 1 | IMatchOrders _ => 2 | IConsumeEvents _ => 3 | ICancelOrder _ _ _ _ => 4
  | ISettleFunds => 5 | ICancelByCidOld _ => 6 | IDisableMarket => 7 | ISweepFees => 8 | INewOrderV2 _ _ => 9
  | INewOrderV3 _ => 10 | ICancelV2 _ _ => 11 | ICancelByCid _ => 12 | ISendTake _ => 13 | ICloseOO => 14
  | IInitOO => 15 | IPrune _ => 16 | IConsumePermissioned _ => 17 | ICancelByCids _ => 18 | IReplaceOne _ => 19
  | IReplaceMany _ => 20
  end.
Definition body (i : instr) : bytes :=
  match i with
  | IInitMarket x => le 8 (ii_coin_lot x) ++ le 8 (ii_pc_lot x) ++ le 2 (ii_fee_rate x) ++ le 8 (ii_nonce x) ++ le 8 (ii_dust x)
  | INewOrder x => pack_v1 x
  | IMatchOrders l | IConsumeEvents l | IPrune l | IConsumePermissioned l => le 2 l
  | ICancelOrder sd id owner slot => le 4 (side_to sd) ++ le 16 id ++ key_le owner ++ le 1 slot
  | ISettleFunds | IDisableMarket | ISweepFees | ICloseOO | IInitOO => []
  | ICancelByCidOld c | ICancelByCid c => le 8 c
  | INewOrderV2 x st => pack_v1 x ++ le 4 (st_to_u8 st)
  | INewOrderV3 x | IReplaceOne x => pack_v3 x
  | ICancelV2 sd id => le 4 (side_to sd) ++ le 16 id
  | ISendTake x => pack_take x
  | ICancelByCids cids => flat_map (le 8) cids
  | IReplaceMany xs => le 8 (zlen xs) ++ flat_map pack_v3 xs
  end.
Definition pack (i : instr) : bytes := le 1 0 ++ le 4 (tag i) ++ body i.

(** The values each Rust field type can hold. *)
Definition u16 (z : Z) : Prop := 0 <= z < 65536.
Definition nz64 (z : Z) : Prop := 0 < z < B64.
Definition wf_v3 (x : order_ix) : Prop :=
  nz64 (oi_price x) /\ nz64 (oi_qty x) /\ nz64 (oi_pc x) /\ u64 (oi_cid x) /\ u16 (oi_limit x) /\
  - (I64_MAX + 1) <= oi_max_ts x <= I64_MAX.
Definition wf_take (x : take_ix) : Prop :=
  nz64 (ti_price x) /\ nz64 (ti_qty x) /\ nz64 (ti_pc x) /\ u64 (ti_min_coin x) /\ u64 (ti_min_pc x) /\ u16 (ti_limit x).
Definition wf_v1 (x : old_ix) : Prop := nz64 (od_price x) /\ nz64 (od_qty x) /\ u64 (od_cid x).
Definition wf_init (x : init_ix) : Prop :=
  u64 (ii_coin_lot x) /\ u64 (ii_pc_lot x) /\ u16 (ii_fee_rate x) /\ u64 (ii_nonce x) /\ u64 (ii_dust x).
Definition wf_instr (i : instr) : Prop :=
  match i with
  | IInitMarket x => wf_init x
  | INewOrder x => wf_v1 x
  | IMatchOrders l | IConsumeEvents l | IPrune l | IConsumePermissioned l => u16 l
  | ICancelOrder _ id owner slot => u128 id /\ 0 <= owner < B128 * B128 /\ 0 <= slot < 256
  | ICancelByCidOld c | ICancelByCid c => u64 c
  | INewOrderV2 x _ => wf_v1 x
  | INewOrderV3 x | IReplaceOne x => wf_v3 x
  | ICancelV2 _ id => u128 id
  | ISendTake x => wf_take x
  | ICancelByCids cids => length cids = 8%nat /\ Forall u64 cids
  | IReplaceMany xs => (length xs <= 8)%nat /\ Forall wf_v3 xs
  | _ => True
  end.
