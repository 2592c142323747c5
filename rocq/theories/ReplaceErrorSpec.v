(** What the errors of a replace mean: those of its cancellation, or those of one of its orders in the state the earlier ones leave. *)
From Verif Require Import Base Fees Queue Codec Critbit CritbitSlab Market Slots MatchSteps Ledger MatchSpec Core Instr Store StoreProofs World WorldInv WorldSpec OpenSpec PlaceSpec ErrorSpec.

(** [x] is the account of [w], with record [oo]; [payer] pays and [disc] is the discount account, if any. *)
Definition replace_error (e : env) (s : store) (k : Z) (m : market) (A : astate) (L : list (Z * open_orders)) (c : clock) (ixs : list order_ix)
    (x w : Z) (oo : open_orders) (payer : Z) (disc : option Z) (er : err) : Prop :=
  cancel_cids_error e s m A x (map oi_cid ixs) er \/
  exists before ix after s1 s2 m2 A2 L2 oo2 t, ixs = before ++ ix :: after /\
    cancels e s s1 k m A L x oo (with_cid x (map oi_cid ixs) (a_bids A)) (with_cid x (map oi_cid ixs) (a_asks A)) /\
    placing e k x payer w disc s1 before s2 /\
    seen e s2 k m2 A2 L2 /\ In (x, oo2) L2 /\ oo_owner oo2 = w /\ token_at s2 payer = Some t /\
    order_error e s2 k m2 A2 c ix x w oo2 t disc er.
(** Amounts fit: [n] orders on side [sd] by an account with totals [oo] and a payer with [bal]. *)
Definition amounts_fit (m : market) (sd : side) (oo : open_orders) (bal n : Z) : Prop :=
  match sd with
  | Bid => oo_coin_total oo + n * m_coin_deposits m < B64 /\ oo_pc_total oo + m_pc_deposits m + 2 * bal < B64
  | Ask => oo_pc_total oo + n * m_pc_deposits m < B64 /\ oo_coin_total oo + m_coin_deposits m + 2 * bal < B64
  end.
(** The instructions that replace orders, and the new orders. *)
Definition replaces (i : instr) (ixs : list order_ix) : Prop := i = IReplaceMany ixs \/ exists ix, ixs = [ix] /\ i = IReplaceOne ix.
