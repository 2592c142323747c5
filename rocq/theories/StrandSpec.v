(** Referral money that is nobody's.  Nothing here is part of the program. *)
From Verif Require Import Base Fees Critbit CritbitSlab Codec ListSum Market Matching Ledger MatchSteps MatchSpec Core Instr InstrProofs Store Process StoreProofs World WorldSpec.

(** What a market holds for referrers beyond what its open-orders accounts have to their credit, or will have once
    the queued events are processed.  Only an account's own credit is ever paid to a referrer. *)
Definition unowed (m : market) (A : astate) (L : list (Z * open_orders)) : Z := m_rebates m - total oo_rebates L - zsum ev_rebate (a_evs A).
(** What an instruction adds to it on market [k]: a SendTake its whole referral share, and the closing of an account all
    that the account had to its credit. *)
Definition stranded (e : env) (k : Z) (m m' : market) (s : store) (i : instr) (ms : list meta) : Z :=
  match i with
  | ISendTake _ => match key_at ms 0 with Some k0 => if k0 =? k then m_rebates m' - m_rebates m else 0 | None => 0 end
  | ICloseOO => match key_at ms 3, key_at ms 0 with
                | Some k0, Some x => if k0 =? k then match dexd e s x with Some (DOO oo) => oo_rebates oo | _ => 0 end else 0
                | _, _ => 0
                end
  | _ => 0
  end.
