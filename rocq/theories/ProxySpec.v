(** The vocabulary of the proxy properties (C42): what the surroundings of a proxy are assumed to be like and what an
    onlooker says about one call.  Nothing here is part of the program. *)
From Verif Require Import Base Fees Market Matching Core Instr InstrProofs Store Process StoreProofs World WorldSpec Proxy.

(** [p] is the address the proxy derives for user [u] on market [k] with some bump. *)
Definition address_of (px : pxenv) (k u p : Z) : Prop := exists b, px_open px k u b = Some p.
(** Derived addresses do not collide: not for two users or two markets, not with the address that opens accounts, not with
    an address the dex derives, and none is the system program. *)
Record px_ok (e : env) (px : pxenv) : Prop := mkPxOk {
  po_open : forall k u k' u' p, address_of px k u p -> address_of px k' u' p -> k = k' /\ u = u';
  po_init : forall k u k' b p, address_of px k u p -> px_init px k' b <> Some p;
  po_dex : forall k u p, address_of px k u p -> ~ is_pda e p;
  po_dex_init : forall k b p, px_init px k b = Some p -> ~ is_pda e p;
  po_sys : forall k u p, address_of px k u p -> p <> 0 }.
(** Nobody but the proxy signs for an address it derives. *)
Definition sealed (px : pxenv) (ms : list meta) : Prop := forall p, signed_by ms p -> (forall k u, ~ address_of px k u p) /\ (forall k b, px_init px k b <> Some p).
(** The proxy is set up with one OpenOrdersPda, [b] and [bi] being its initial bumps, and any of the others. *)
Definition not_pda (m : mw) : Prop := match m with MPda _ _ => False | _ => True end.
Definition guarded (mws : list mw) : Prop := exists l b bi r, mws = l ++ MPda b bi :: r /\ Forall not_pda l /\ Forall not_pda r.
(** What the proxy passes on: the bytes after the discriminant and, where that is 0, after the two bumps. *)
Definition payload (data : bytes) : bytes := match data with 0 :: _ :: _ :: r => r | _ :: r => r | [] => [] end.
(** The call asks for instruction [i]. *)
Definition asks (data : bytes) (i : instr) : Prop := unpack (payload data) = Some i /\ relayed i <> None.
(** Tokens are where they were. *)
Definition same_tokens (s s' : store) : Prop := forall v, token_at s' v = token_at s v.
(** Key [w] has agreed: a user whose address it is has signed, or it is nobody's address and has signed itself. *)
Definition agreed (px : pxenv) (ms : list meta) (w : Z) : Prop :=
  (forall k u, address_of px k u w -> signed_by ms u) /\ ((forall k u, ~ address_of px k u w) -> signed_by ms w).
(** Where cancelling, settling and closing have the market, the owner and the open-orders account. *)
Definition spots (i : instr) : option (nat * nat * nat) :=
  match i with
  | ICancelV2 _ _ | ICancelByCid _ => Some (0, 4, 3)%nat
  | ISettleFunds => Some (0, 2, 1)%nat
  | ICloseOO => Some (3, 1, 0)%nat
  | _ => None
  end.
(** The account list with one entry replaced. *)
Definition replaced (i : nat) (a : meta) (l l' : list meta) : Prop :=
  length l' = length l /\ nth_error l' i = Some a /\ forall j, j <> i -> nth_error l' j = nth_error l j.
(** [l'] is [l], except that a key that has signed somewhere in the list has signed everywhere. *)
Definition spread (l l' : list meta) : Prop := map mk l' = map mk l /\ forall a, In a l' -> mk_signer a = true <-> signed_by l (mk a).
(** A market on which accounts are opened by the proxy only. *)
Definition gated (px : pxenv) (k : Z) (m : market) : Prop := permissioned m /\ exists b, px_init px k b = Some (m_oo_auth m).
(** All states of all histories of direct calls, calls through the proxy and anything else other programs may do. *)
Inductive lived (e : env) (px : pxenv) : store -> Prop :=
| lived_start s : genesis e s -> lived e px s
| lived_direct s c b ms : lived e px s -> legal e ms -> sealed px ms -> lived e px (transact e c s b ms)
| lived_proxy s c mws ms data s' : lived e px s -> guarded mws -> legal e ms -> sealed px ms -> is_bytes data ->
    run e px c mws s ms data = Ok s' -> lived e px s'
| lived_env s s' : lived e px s -> rely e s s' -> lived e px s'.
(** An open-orders account in use. *)
Definition in_use (e : env) (s : store) (k x : Z) (oo : open_orders) : Prop := dexd e s x = Some (DOO oo) /\ oo_flags oo = OO_FLAGS /\ oo_market oo = k.
