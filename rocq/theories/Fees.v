(** Model of dex/src/fees.rs *)
From Verif Require Import Base.

(** [fees.rs:29-41] *)
Inductive tier := TBase | SRM2 | SRM3 | SRM4 | SRM5 | SRM6 | MSRM | Stable.

(** [IntoPrimitive]/[TryFromPrimitive] of [FeeTier], [fees.rs:29-31] *)
Definition tier_to_u8 (t : tier) : Z :=
  match t with TBase => 0 | SRM2 => 1 | SRM3 => 2 | SRM4 => 3 | SRM5 => 4
             | SRM6 => 5 | MSRM => 6 | Stable => 7 end.
Definition tier_of_u8 (x : Z) : option tier :=
  if x =? 0 then Some TBase else if x =? 1 then Some SRM2 else
  if x =? 2 then Some SRM3 else if x =? 3 then Some SRM4 else
  if x =? 4 then Some SRM5 else if x =? 5 then Some SRM6 else
  if x =? 6 then Some MSRM else if x =? 7 then Some Stable else None.

(** U64F64, [fees.rs:43-79]: a u128 with 64 fractional bits. *)
Definition fx_one : Z := B64.
Definition fx_add (a b : Z) : Z := w128 (a + b).
Definition fx_div (a b : Z) : Z := a / b.
Definition fx_mul_u64 (a n : Z) : Z := w128 (a * n).
Definition fx_floor (a : Z) : Z := w64 (a / B64).
Definition fx_frac (a : Z) : Z := w64 a.
Definition fx_from_int (n : Z) : Z := w128 (n * B64).

(** [fees.rs:81-84] *)
Definition fee_tenth_of_bps (n : Z) : Z := w128 (n * B64) / 100000.
(** [fees.rs:86-89] *)
Definition rebate_tenth_of_bps (n : Z) : Z := w128 (fee_tenth_of_bps n + 1).

(** Stable market ids, [fees.rs:8-27] (base58 decoded, see DESIGN.md for the encoding). *)
Definition stable_markets : list Z :=
  [ 46344865282059349688135583486329442994755130932026750733875674670996943779007;
    12672268038554555543806607264659509393819671396053946977995971818720881832026;
    55888627263916115851765680804842682281271158578377119361886964517670938330725;
    38180059333715611744501977194107677208643874346439666994669948912354517004842;
    66338599382522770284327638926789607619648810385196788047669567858392418000632;
    26147081890206665157207639277928053424450836058290630388026074141249417293735 ].

(** [fees.rs:92-115] *)
Definition tier_from_balances (market srm msrm : Z) : tier :=
  let one_srm := 1000000 in
  if existsb (Z.eqb market) stable_markets then Stable
  else if 1 <=? msrm then MSRM
  else if one_srm * 1000000 <=? srm then SRM6
  else if one_srm * 100000 <=? srm then SRM5
  else if one_srm * 10000 <=? srm then SRM4
  else if one_srm * 1000 <=? srm then SRM3
  else if one_srm * 100 <=? srm then SRM2
  else TBase.

(** [fees.rs:117-120] *)
Definition maker_rebate (t : tier) (pc_qty : Z) : Z :=
  fx_floor (fx_mul_u64 (rebate_tenth_of_bps 0) pc_qty).

(** [fees.rs:122-134] *)
Definition taker_rate (t : tier) : Z :=
  match t with
  | TBase => fee_tenth_of_bps 40
  | SRM2 => fee_tenth_of_bps 39
  | SRM3 => fee_tenth_of_bps 38
  | SRM4 => fee_tenth_of_bps 36
  | SRM5 => fee_tenth_of_bps 34
  | SRM6 => fee_tenth_of_bps 32
  | MSRM => fee_tenth_of_bps 30
  | Stable => fee_tenth_of_bps 10
  end.

(** [fees.rs:136-141] *)
Definition taker_fee (t : tier) (pc_qty : Z) : Z :=
  let exact := fx_mul_u64 (taker_rate t) pc_qty in
  wadd (fx_floor exact) (if fx_frac exact =? 0 then 0 else 1).

(** [fees.rs:143-150]; the [try_into().unwrap()] is the [Panic]. *)
Definition remove_taker_fee (t : tier) (pc_qty_incl : Z) : res Z :=
  let q := fx_div (fx_from_int pc_qty_incl) (fx_add fx_one (taker_rate t)) in
  if q <? B64 then Ok q else Panic.

(** [fees.rs:153-156] *)
Definition referrer_rebate (amount : Z) : Z := amount / 5.

(** [state.rs:534-569] (MarketState::load_fee_tier).  The discount token account is
    given by the three fields the code reads: mint, owner, balance. *)
Definition srm_mint : Z := 56628498206669182927202916268106582807304225191057298643229410113435120861685.
Definition msrm_mint : Z := 8739542145272335310412855361804162319247031419270297783069203842187035792226.
Record discount_account := { da_mint : Z; da_owner : Z; da_balance : Z }.
Definition load_fee_tier (market expected_owner : Z) (da : option discount_account) : res tier :=
  match da with
  | None => Ok (tier_from_balances market 0 0)
  | Some a =>
      _ <- check (da_owner a =? expected_owner) EAssert ;;
      if da_mint a =? srm_mint then Ok (tier_from_balances market (da_balance a) 0)
      else if da_mint a =? msrm_mint then Ok (tier_from_balances market 0 (da_balance a))
      else Ok (tier_from_balances market 0 0)
  end.
