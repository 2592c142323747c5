(** The vocabulary of the example program's properties (C60).  Nothing here is part of the program. *)
From Verif Require Import Base Fees Market Matching Core Instr InstrProofs Store Process StoreProofs World WorldSpec Proxy ProxySpec Client Permissioned.

(** The addresses for pruning collide with none of the others, and not with the rent sysvar. *)
Record prune_ok (e : env) (px : pxenv) (prune : Z -> option Z) : Prop := mkPruneOk {
  pr_one : forall k k' p, prune k = Some p -> prune k' = Some p -> k = k';
  pr_open : forall k p k' u, prune k = Some p -> ~ address_of px k' u p;
  pr_init : forall k p k' b, prune k = Some p -> px_init px k' b <> Some p;
  pr_dex : forall k p, prune k = Some p -> ~ is_pda e p }.
(** Nobody but the program signs for its addresses, and nobody signs for the rent sysvar. *)
Definition outside (px : pxenv) (prune : Z -> option Z) (ms : list meta) : Prop :=
  sealed px ms /\ ~ signed_by ms rent_id /\ forall p, signed_by ms p -> forall k, prune k <> Some p.
(** The token is shown: the account after the dex is the rent sysvar. *)
Definition shows_token (ms : list meta) : Prop := key_at ms 1 = Some rent_id.
(** The same call without that account. *)
Definition without_token (ms : list meta) : list meta := match ms with d :: _ :: l => d :: l | _ => [] end.
(** What the user does, and what is done to the user. *)
Definition users (i : instr) : Prop := match i with IInitOO | INewOrderV3 _ | ICancelV2 _ _ | ICancelByCid _ | ISettleFunds | ICloseOO => True | _ => False end.
Definition keepers (i : instr) : Prop := match i with IPrune _ | IConsumePermissioned _ => True | _ => False end.
(** The middlewares of the library the example uses. *)
Definition example_mws : list mw := [MLogger; MReferral referral_id; MPda 0 0].
(** All states of all histories of direct calls, calls of the example program and anything else other programs may do. *)
Inductive hosted (e : env) (px : pxenv) (prune : Z -> option Z) : store -> Prop :=
| hosted_start s : genesis e s -> hosted e px prune s
| hosted_direct s c b ms : hosted e px prune s -> legal e ms -> outside px prune ms -> hosted e px prune (transact e c s b ms)
| hosted_entry s c ms data s' : hosted e px prune s -> legal e ms -> outside px prune ms -> is_bytes data ->
    entry e px prune c s ms data = Ok s' -> hosted e px prune s'
| hosted_env s s' : hosted e px prune s -> rely e s s' -> hosted e px prune s'.
(** A market set up for the program: it opens the accounts, prunes and consumes. *)
Definition set_up (px : pxenv) (prune : Z -> option Z) (k : Z) (m : market) : Prop :=
  gated px k m /\ needs_crank_authority m /\ prune k = Some (m_prune_auth m) /\ prune k = Some (m_crank_auth m).
