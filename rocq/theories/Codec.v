(** Model of the event and request records of dex/src/state.rs:923-1313.
    Flag bytes are explicit; the packed byte layout of the other fields is not modelled.
    [Option<NonZeroU64>] is a [Z] with 0 for [None] (that is also its machine representation). *)
From Verif Require Import Base Fees.

(** EventView, [state.rs:1276-1300] *)
Inductive event_view :=
| EvFill (sd : side) (maker : bool) (paid received fee_or_rebate order_id owner slot : Z)
         (t : tier) (cid : Z)
| EvOut (sd : side) (release : bool) (unlocked still_locked order_id owner slot cid : Z).

(** Event, [state.rs:1167-1184] *)
Record event := mkEvent {
  e_flags : Z; e_slot : Z; e_tier : Z;
  e_released : Z; e_paid : Z; e_fee : Z;
  e_oid : Z; e_owner : Z; e_cid : Z
}.
(** EventFlag, [state.rs:1140-1148] *)
Definition EF_Fill := 1. Definition EF_Out := 2. Definition EF_Bid := 4.
Definition EF_Maker := 8. Definition EF_Release := 16.
(** [state.rs:1150-1165] *)
Definition flags_of_side (s : side) : Z := match s with Bid => EF_Bid | Ask => 0 end.
Definition has (flags f : Z) : bool := negb (Z.land flags f =? 0).
Definition subset (flags allowed : Z) : bool := Z.land flags allowed =? flags.

(** Event::new, [state.rs:1191-1262] *)
Definition event_new (v : event_view) : event :=
  match v with
  | EvFill sd maker paid received fee oid owner slot t cid =>
      mkEvent (Z.lor (Z.lor (flags_of_side sd) EF_Fill) (if maker then EF_Maker else 0))
              slot (tier_to_u8 t) received paid fee oid owner cid
  | EvOut sd release unlocked still oid owner slot cid =>
      mkEvent (Z.lor (Z.lor (flags_of_side sd) EF_Out) (if release then EF_Release else 0))
              slot 0 unlocked still 0 oid owner cid
  end.

(** Event::as_view, [state.rs:1264-1312].  [BitFlags::from_bits] fails on unknown bits. *)
Definition event_as_view (e : event) : res event_view :=
  let flags := e_flags e in
  _ <- passert (subset flags 31) ;;
  let sd := if has flags EF_Bid then Bid else Ask in
  if has flags EF_Fill then
    _ <- check (subset flags (Z.lor (Z.lor EF_Fill EF_Bid) EF_Maker)) EAssert ;;
    t <- ok_or (tier_of_u8 (e_tier e)) EAssert ;;
    Ok (EvFill sd (has flags EF_Maker) (e_paid e) (e_released e) (e_fee e) (e_oid e) (e_owner e)
               (e_slot e) t (e_cid e))
  else
    _ <- check (subset flags (Z.lor (Z.lor EF_Out EF_Bid) EF_Release)) EAssert ;;
    Ok (EvOut sd (has flags EF_Release) (e_released e) (e_paid e) (e_oid e) (e_owner e)
              (e_slot e) (e_cid e)).

(** RequestView, [state.rs:952-973] *)
Inductive request_view :=
| RqNew (sd : side) (ot : order_type) (slot : Z) (t : tier) (order_id max_coin pc_locked owner cid : Z)
        (st : self_trade)
| RqCancel (sd : side) (order_id cancel_id slot owner cid : Z).

(** Request, [state.rs:934-948] *)
Record request := mkRequest {
  r_flags : Z; r_slot : Z; r_tier : Z; r_st : Z; r_qty : Z; r_pc : Z; r_oid : Z; r_owner : Z; r_cid : Z
}.
(** SelfTradeBehavior discriminants, [instruction.rs:62-72] *)
Definition st_to_u8 (s : self_trade) : Z :=
  match s with DecrementTake => 0 | CancelProvide => 1 | AbortTransaction => 2 end.
Definition st_of_u8 (z : Z) : option self_trade :=
  if z =? 0 then Some DecrementTake else if z =? 1 then Some CancelProvide
  else if z =? 2 then Some AbortTransaction else None.
(** RequestFlag, [state.rs:923-932] *)
Definition RF_New := 1. Definition RF_Cancel := 2. Definition RF_Bid := 4.
Definition RF_PostOnly := 8. Definition RF_Ioc := 16. Definition RF_Decr := 32.

(** Request::new, [state.rs:976-1038] *)
Definition request_new (v : request_view) : request :=
  match v with
  | RqNew sd ot slot t oid qty pc owner cid st =>
      let f := Z.lor RF_New (match sd with Bid => RF_Bid | Ask => 0 end) in
      let f := match ot with PostOnly => Z.lor f RF_PostOnly | ImmediateOrCancel => Z.lor f RF_Ioc
                           | Limit => f end in
      mkRequest f slot (tier_to_u8 t) (st_to_u8 st) qty pc oid owner cid
  | RqCancel sd oid cancel_id slot owner cid =>
      mkRequest (Z.lor RF_Cancel (match sd with Bid => RF_Bid | Ask => 0 end))
                slot 0 0 cancel_id 0 oid owner cid
  end.

(** Request::as_view, [state.rs:1040-1096] *)
Definition request_as_view (r : request) : res request_view :=
  let flags := r_flags r in
  _ <- passert (subset flags 63) ;;
  let sd := if has flags RF_Bid then Bid else Ask in
  if has flags RF_New then
    _ <- check (subset flags (Z.lor (Z.lor (Z.lor RF_New RF_Bid) RF_PostOnly) RF_Ioc)) EAssert ;;
    ot <- match has flags RF_PostOnly, has flags RF_Ioc with
          | true, false => Ok PostOnly
          | false, true => Ok ImmediateOrCancel
          | false, false => Ok Limit
          | true, true => Panic
          end ;;
    t <- ok_or (tier_of_u8 (r_tier r)) EAssert ;;
    st <- ok_or (st_of_u8 (r_st r)) EAssert ;;
    _ <- passert (negb (r_qty r =? 0)) ;;
    Ok (RqNew sd ot (r_slot r) t (r_oid r) (r_qty r) (r_pc r) (r_owner r) (r_cid r) st)
  else
    _ <- check (has flags RF_Cancel) EAssert ;;
    _ <- check (subset flags (Z.lor RF_Cancel RF_Bid)) EAssert ;;
    Ok (RqCancel sd (r_oid r) (r_qty r) (r_slot r) (r_owner r) (r_cid r)).
