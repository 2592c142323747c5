(** The books of the exchange itself.  Nothing here is part of the program. *)
From Verif Require Import Base Fees Critbit CritbitSlab Codec ListSum Market Matching Ledger MatchSteps MatchSpec Core Instr InstrProofs Store Process StoreProofs World WorldSpec LifeSpec AbsentSpec StatementSpec.

(** One line of the books: what traders without an account paid into the vaults on balance (negative if they were
    paid), what was swept, and what referrers were paid. *)
Record dealing : Type := mkDealing { coin_swap : Z; pc_swap : Z; swept : Z; referred : Z }.
Definition no_dealing : dealing := mkDealing 0 0 0 0.
(** What a vault gained. *)
Definition gain (s s' : store) (v : Z) : Z := balance s' v - balance s v.
(** The line of market [k] for one instruction, by what happened to the vaults: a send-take is a trader without an
    account; a sweep takes what the vault lost; and at a settlement all that the vault paid beyond the free
    amount of the account went to a referrer. *)
Definition line (e : env) (k : Z) (s s' : store) (i : instr) (ms : list meta) : dealing :=
  match key_at ms 0, dexd e s k with
  | Some k', Some (DMarket m) =>
      if k' =? k then
        match i with
        | ISendTake _ => mkDealing (gain s s' (m_coin_vault m)) (gain s s' (m_pc_vault m)) 0 0
        | ISweepFees => mkDealing 0 0 (- gain s s' (m_pc_vault m)) 0
        | ISettleFunds =>
            match key_at ms 1 with
            | Some x => match dexd e s x with Some (DOO oo) => mkDealing 0 0 0 (- gain s s' (m_pc_vault m) - oo_pc_free oo) | _ => no_dealing end
            | None => no_dealing
            end
        | _ => no_dealing
        end
      else no_dealing
  | _, _ => no_dealing
  end.
(** Where the accounts stand to which an instruction pays, and that none of those is a vault of the market: whoever
    has the exchange pay into its own vault gives the money away. *)
Definition payees (i : instr) : list nat := match i with ISendTake _ => [5; 6]%nat | ISettleFunds => [5; 6; 9]%nat | ISweepFees => [3%nat] | _ => [] end.
Definition pays_others (e : env) (k : Z) (s : store) (i : instr) (ms : list meta) : Prop :=
  forall m j v, dexd e s k = Some (DMarket m) -> key_at ms 0 = Some k -> In j (payees i) -> key_at ms j = Some v -> v <> m_coin_vault m /\ v <> m_pc_vault m.
(** A stretch of a history, the events queued on market [k], and the lines of its books. *)
Inductive books (e : env) (k : Z) (s : store) : list event_view -> list dealing -> store -> Prop :=
| books_now : books e k s [] [] s
| books_tx E T s1 c b ms i s2 E1 : books e k s E T s1 -> no_overflow e s1 -> sized s1 -> is_bytes b -> legal e ms -> unpack b = Some i ->
    pays_others e k s1 i ms -> process e c s1 i ms = Ok s2 -> queued e k s1 s2 E1 -> books e k s (E ++ E1) (T ++ [line e k s1 s2 i ms]) s2
| books_env E T s1 s2 : books e k s E T s1 -> rely e s1 s2 -> books e k s E T s2.
(** What traders paid beyond what traders received: those with an account according to the events, fee included,
    and those without one. *)
Definition income (E : list event_view) (T : list dealing) : Z := zsum pc_swap T - zsum pc_trade E.
