(** How much there is of a token, and of lamports.  Nothing here is part of the program. *)
From Verif Require Import Base ListSum Store StoreProofs World.

(** What account [v] holds of token [mint]. *)
Definition holding (mint : Z) (s : store) (v : Z) : Z := match token_at s v with Some t => if t_mint t =? mint then t_amount t else 0 | None => 0 end.
(** [K] lists every token account there is, once. *)
Definition all_holders (s : store) (K : list Z) : Prop := NoDup K /\ forall v t, token_at s v = Some t -> In v K.
Definition lamports (s : store) (v : Z) : Z := a_lamports (sget s v).
