(** How much there is of a token in the accounts a pool program sees.  Nothing here is part of the program. *)
From Verif Require Import Base ListSum Store PoolStore.

(** What account [v] holds of token [m]. *)
Definition pool_holding (m : Z) (s : pstore) (v : Z) : Z := match ptoken s v with Some t => if t_mint t =? m then t_amount t else 0 | None => 0 end.
(** [K] lists every token account there is, once. *)
Definition pool_holders (s : pstore) (K : list Z) : Prop := NoDup K /\ forall v t, ptoken s v = Some t -> In v K.
(** What the mint [m] says is in circulation. *)
Definition recorded (m : Z) (s : pstore) : Z := match pmint s m with Some i => mi_supply i | None => 0 end.
