(** The bytes of pool states and pool requests as tables of field widths and values, apart from the code that writes and
    reads them.  Nothing here is part of the program. *)
From Verif Require Import Base Fees Core Instr Store Borsh PoolStore Pool AdminPool WireSpec.

(** A list is its length and its items, a text its length and its bytes, a flag or an option one byte of 0 or 1. *)
Definition list_fields {X} (f : X -> list (nat * Z)) (l : list X) : list (nat * Z) := (4%nat, Z.of_nat (length l)) :: concat (map f l).
Definition text_fields (b : list Z) : list (nat * Z) := list_fields (fun x => [(1%nat, x)]) b.
Definition flag_field (f : bool) : nat * Z := (1%nat, if f then 1 else 0).
Definition state_fields (st : pstate) : list (nat * Z) :=
  [(8%nat, 0x16a7874c7fb2301b)] ++ key_words (ps_mint st) ++ list_fields (fun a => key_words (as_mint a) ++ key_words (as_vault a)) (ps_assets st) ++
  key_words (ps_signer st) ++ [(1%nat, ps_nonce st)] ++ list_fields (fun p => key_words (fst p) ++ [flag_field (snd p)]) (ps_params st) ++ text_fields (ps_name st) ++
  key_words (ps_lqd st) ++ key_words (ps_init st) ++ [(4%nat, ps_rate st)] ++ match ps_admin st with Some a => (1%nat, 1) :: key_words a | None => [(1%nat, 0)] end ++ text_fields (ps_custom st).
Definition action_fields (a : action) : list (nat * Z) :=
  match a with Create n => [(1%nat, 0); (8%nat, n)] | Redeem n => [(1%nat, 1); (8%nat, n)] | Swap l => (1%nat, 2) :: list_fields (fun n => [(8%nat, n)]) l end.
Definition request_fields (q : request) : list (nat * Z) :=
  (8%nat, 0x220a6cbdcd1cc4cf) ::
  match q with
  | RInit r => [(1%nat, 0); (1%nat, iq_nonce r); (1%nat, iq_assets r)] ++ text_fields (iq_name r) ++ [(4%nat, iq_rate r)] ++ text_fields (iq_custom r)
  | RGetBasket a => (1%nat, 1) :: action_fields a
  | RExecute a => (1%nat, 2) :: action_fields a
  end.
(** The requests of the administrator and the paused flag of the admin-controlled pool *)
Definition admin_fields (q : admin_req) : list (nat * Z) :=
  (8%nat, 0x31e6452361a17878) ::
  match q with
  | APause => [(1%nat, 0)] | AUnpause => [(1%nat, 1)] | AApprove n => [(1%nat, 2); (8%nat, n)] | AAddAsset => [(1%nat, 3)] | ARemoveAsset => [(1%nat, 4)]
  | AUpdateFee n => [(1%nat, 5); (4%nat, n)] | AUpdateAdmin => [(1%nat, 6)]
  end.
Definition paused_fields (p : bool) : list (nat * Z) := [(8%nat, 0x4a3ab7f76f93f94e); flag_field p].
