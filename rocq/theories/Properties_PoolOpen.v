(** C89.  What opening a pool checks and what it leaves alone. *)
From Verif Require Import Base BaseProofs Fees Core Instr InstrProofs Store Borsh PoolStore Pool AdminPool BorshProofs PoolFees PoolFacts PoolExec PoolWorld PoolInv PoolOpen ExamplePool.

(** A successful Initialize makes one new pool in the first account, which held none, and writes nothing else.  The pool has the
    name, fee, nonce and number of assets asked for; every vault is a token account of its asset's mint; and the data of
    the account that takes the fee for liquidity name the fixed owner, no delegate and no closing authority but the pool's signer.
    (That this account is one of the token program is not checked here but at each later request: check_fees.) *)
Theorem C89_new_pool : forall e P, penv_ok e -> standard e P -> forall s s' ms b k q, preach e P s -> honest e ms b -> pool_entry e P s ms b = Ok s' ->
  whole (get_request e) b = Some (RInit q) -> hd_error (map mk ms) = Some k ->
  (forall st0, ~ pool_at e s k st0) /\ (forall x, x <> k -> pget s' x = pget s x) /\
  exists st t, pool_at e s' k st /\ ps_name st = iq_name q /\ ps_rate st = iq_rate q /\ ps_nonce st = iq_nonce q /\ zlen (ps_assets st) = iq_assets q /\
    (forall a, In a (ps_assets st) -> exists ta, ptoken s (as_vault a) = Some ta /\ t_mint ta = as_mint a) /\
    pa_data (pget s (ps_lqd st)) = PToken t /\ t_owner t = lqd_fee_owner /\ t_delegate t = None /\ (t_close t = None \/ t_close t = Some (ps_signer st)).
Proof. exact new_pool. Qed.
Print Assumptions C89_new_pool.
Example C89_case : preach pe default_impl z0 /\ honest pe init_metas init_data /\ pool_entry pe default_impl z0 init_metas init_data = Ok z1 /\
  whole (get_request pe) init_data = Some (RInit (mkInitReq 255 2 [65; 66] 2500 [])) /\ hd_error (map mk init_metas) = Some 100 /\ pool_at pe z1 100 z_state /\ ps_lqd z_state = 110.
Proof. split; [apply Pr_begin; exact begin_z0|]. split; [tx|]. split; [exact z1_run|]. split; [vm_compute; reflexivity|]. split; [reflexivity|]. split; [exact z1_pool|reflexivity]. Qed.
(** The same opening with an account of another owner to take the fee is turned down. *)
Example C89_other_owner : exists x, pool_entry pe default_impl z0 (map m_ [100; 101; 102; 103; sg; 111; 111; rent_id; 90]) init_data = Err x.
Proof. eexists. vm_compute. reflexivity. Qed.
