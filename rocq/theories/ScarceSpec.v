(** A limit on the supply of tokens.  Nothing here is part of the program. *)
From Verif Require Import Base ListSum Queue Market Store StoreProofs World WorldSpec TotalSpec.

(** A guard on how much there is of a token, whoever holds it: of neither token of market [k] do all accounts together
    hold more than [K k], and so much for every place of the event queue and once more fits into 64 bits; the order
    counter has room. *)
Definition scarce (e : env) (K : Z -> Z) (s : store) : Prop := forall k m, dexd e s k = Some (DMarket m) -> usable m ->
  (forall mint H, mint = m_coin_mint m \/ mint = m_pc_mint m -> all_holders s H -> zsum (holding mint s) H <= K k) /\
  (forall q, dexd e s (m_event_q m) = Some (DEventQ q) -> K k * (1 + zlen (q_buf q)) < B64) /\
  (forall c seq, dexd e s (m_req_q m) = Some (DReqQ (c, seq)) -> seq + 16 < B64).
