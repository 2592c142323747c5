(** Counting transactions.  Nothing here is part of the program. *)
From Verif Require Import Base ListSum Queue Market Core Instr InstrProofs Store Process StoreProofs World WorldSpec TotalSpec.

(** Histories of [n] transactions, successful or not, each starting from a state satisfying [G]. *)
Inductive counted (e : env) (G : store -> Prop) : nat -> store -> Prop :=
| cn_start s : genesis e s -> counted e G 0 s
| cn_tx n s c b ms : counted e G n s -> G s -> sized s -> is_bytes b -> legal e ms -> counted e G (S n) (transact e c s b ms)
| cn_env n s s' : counted e G n s -> rely e s s' -> counted e G n s'.
(** How many orders an instruction can bring. *)
Definition brought (i : instr) : Z :=
  match i with INewOrderV3 _ | ISendTake _ | IReplaceOne _ => 1 | IReplaceMany ixs => Z.of_nat (length ixs) | _ => 0 end.
(** A limit on the supply of tokens and on nothing else: of neither token of market [k] do all accounts together hold
    more than [K k], and so much for every place of the event queue and once more fits into 64 bits. *)
Definition capped (e : env) (K : Z -> Z) (s : store) : Prop := forall k m, dexd e s k = Some (DMarket m) -> usable m ->
  (forall mint H, mint = m_coin_mint m \/ mint = m_pc_mint m -> all_holders s H -> zsum (holding mint s) H <= K k) /\
  (forall q, dexd e s (m_event_q m) = Some (DEventQ q) -> K k * (1 + zlen (q_buf q)) < B64).
