(** The places of an event queue, and a limit on supply that speaks of tokens and sizes only.  Nothing here is part of the program. *)
From Verif Require Import Base ListSum Queue Market Store Process StoreProofs World TotalSpec.

(** Of no token do all accounts together hold more than [S]; no event queue of the program has more than [C] places, nor has
    any of its accounts room for more; and [S] for each of [C] places and once more fits into 64 bits. *)
Record limited (e : env) (S C : Z) (s : store) : Prop := mkLimited {
  li_sup : forall mint H, all_holders s H -> zsum (holding mint s) H <= S;
  li_que : forall y q, dexd e s y = Some (DEventQ q) -> zlen (q_buf q) <= C;
  li_len : forall y d, dexd e s y = Some d -> event_slots (a_len (sget s y)) <= C;
  li_fit : 0 <= S /\ S * (1 + C) < B64 }.
