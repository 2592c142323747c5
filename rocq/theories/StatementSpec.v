(** The account of a trader as a bank statement.  Nothing here is part of the program. *)
From Verif Require Import Base Fees Critbit CritbitSlab Codec ListSum Market Matching Ledger MatchSteps MatchSpec Core Instr InstrProofs Store Process StoreProofs World WorldSpec LifeSpec AbsentSpec.

(** What a trade brings to the account it belongs to, or takes from it, in coin and in quote currency, whether its
    order was resting or incoming.  What an event says is paid or received already includes the fee. *)
Definition coin_trade (v : event_view) : Z :=
  match v with EvFill Bid _ _ received _ _ _ _ _ _ => received | EvFill Ask _ paid _ _ _ _ _ _ _ => - paid | _ => 0 end.
Definition pc_trade (v : event_view) : Z :=
  match v with EvFill Bid _ paid _ _ _ _ _ _ _ => - paid | EvFill Ask _ _ received _ _ _ _ _ _ => received | _ => 0 end.

(** One line of the statement: what was put into the vaults, and what was paid out. *)
Record amounts : Type := mkAmounts { coin_in : Z; pc_in : Z; coin_out : Z; pc_out : Z }.
Definition nothing : amounts := mkAmounts 0 0 0 0.
Definition balance (s : store) (v : Z) : Z := match token_at s v with Some t => t_amount t | None => 0 end.
(** The line of account [x] of market [k] for one instruction.  An order of the account puts in what the
    vaults gain; settling the account pays out its free amounts; any other instruction is nothing. *)
Definition entry (e : env) (k x : Z) (s s' : store) (i : instr) (ms : list meta) : amounts :=
  match key_at ms 0, acts_for i ms, dexd e s k with
  | Some k', Some x', Some (DMarket m) =>
      if (k' =? k) && (x' =? x) then
        match i with
        | INewOrderV3 _ | IReplaceOne _ | IReplaceMany _ =>
            mkAmounts (balance s' (m_coin_vault m) - balance s (m_coin_vault m)) (balance s' (m_pc_vault m) - balance s (m_pc_vault m)) 0 0
        | ISettleFunds => match dexd e s x with Some (DOO oo) => mkAmounts 0 0 (oo_coin_free oo) (oo_pc_free oo) | _ => nothing end
        | _ => nothing
        end
      else nothing
  | _, _, _ => nothing
  end.
(** A stretch of a history, the events queued on market [k], and the lines of account [x]. *)
Inductive statement (e : env) (k x : Z) (s : store) : list event_view -> list amounts -> store -> Prop :=
| statement_now : statement e k x s [] [] s
| statement_tx E T s1 c b ms i s2 E1 : statement e k x s E T s1 -> no_overflow e s1 -> sized s1 -> is_bytes b -> legal e ms ->
    unpack b = Some i -> process e c s1 i ms = Ok s2 -> queued e k s1 s2 E1 -> statement e k x s (E ++ E1) (T ++ [entry e k x s1 s2 i ms]) s2
| statement_env E T s1 s2 : statement e k x s E T s1 -> rely e s1 s2 -> statement e k x s E T s2.
(** All that belongs to account [x]: nothing as long as there is no such account. *)
Definition owned (x : Z) (A : astate) (L : list (Z * open_orders)) (coin pc : Z) : Prop :=
  (exists oo, In (x, oo) L /\ coin = coin_claim x oo A /\ pc = pc_claim x oo A) \/ ((forall oo, ~ In (x, oo) L) /\ coin = 0 /\ pc = 0).
