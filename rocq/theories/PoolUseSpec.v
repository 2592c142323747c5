(** When creating and redeeming pool tokens must go through.  Nothing here is part of the program. *)
From Verif Require Import Base Fees Core Instr Store Borsh PoolStore Pool AdminPool PoolFees PoolFacts PoolExec PoolWorld PoolInv PoolBack.

(** A token account of the mint that is initialised and not frozen; and one that [who] owns and has not delegated to
    themselves. *)
Definition open_at (s : pstore) (k m : Z) : Prop := exists t, ptoken s k = Some t /\ t_mint t = m /\ t_state t = 1.
Definition wallet (s : pstore) (k m who : Z) : Prop := exists t, ptoken s k = Some t /\ t_mint t = m /\ t_state t = 1 /\ t_owner t = who /\ t_delegate t <> Some who.
(** The pool is not paused. *)
Definition running (P : impl) (st : pstate) : Prop := P = default_impl \/ flag_is st false.
(** The accounts of the call are the pool's, in order, and the user's. *)
Record prepared (s : pstore) (st : pstate) (c : call) : Prop := mkPrepared {
  pr_call : call_ok s st c;
  pr_params : map fst (ps_params st) = map mk (firstn (length (ps_params st)) (ca_rest c));
  pr_assets : Forall2 (fun a u => as_mint a <> ps_mint st /\ wallet s (as_vault a) (as_mint a) (ps_signer st) /\ open_at s (mk u) (as_mint a) /\ bal s (as_vault a) < B64) (ps_assets st) (ca_user c);
  pr_apart : NoDup (map as_vault (ps_assets st) ++ map mk (ca_user c));
  pr_pt : open_at s (mk (ca_pt c)) (ps_mint st);
  pr_lqd : wallet s (ps_lqd st) (ps_mint st) lqd_fee_owner;
  pr_ini : open_at s (ps_init st) (ps_mint st);
  pr_ref : open_at s (mk (ca_ref c)) (ps_mint st);
  pr_sign : mk_signer (ca_who c) = true }.
(** The pool accounts have room for [n] more. *)
Definition room (s : pstore) (k n : Z) : Prop := bal s k + n < B64.

(** Any history of a pool program from some state. *)
Inductive later (e : penv) (P : impl) (s : pstore) : pstore -> Prop :=
| later_now : later e P s s
| later_step s1 s' : later e P s s1 -> pstep e P s1 s' -> later e P s s'.
