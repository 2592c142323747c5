(** C86: a pool makes and burns pool tokens as their mint records, and no other token.  [recorded m s]: the supply that the
    mint [m] records; [pool_holders s K]: [K] lists every token account of [s] once (PoolTotalSpec.v). *)
From Verif Require Import Base BaseProofs ListSum Fees Core Instr InstrProofs Store Borsh PoolStore Pool AdminPool BorshProofs PoolFees PoolFacts PoolExec PoolWorld PoolInv ExamplePool PoolTotalSpec PoolTotal.

(** Any transaction a pool program accepts: no token account appears or disappears; a mint's record changes only if it is
    the mint of the pool called; and what all accounts together hold of any token changes by exactly what its mint records. *)
Theorem C86_pool_tokens_as_recorded : forall e P, penv_ok e -> standard e P -> forall s s' ms b, preach e P s -> honest e ms b -> pool_entry e P s ms b = Ok s' ->
  (forall v, ptoken s v = None <-> ptoken s' v = None) /\
  (forall m, recorded m s' <> recorded m s -> exists k st, hd_error (map mk ms) = Some k /\ pool_at e s k st /\ m = ps_mint st) /\
  (forall m K, pool_holders s K -> pool_holders s' K /\ zsum (pool_holding m s') K - recorded m s' = zsum (pool_holding m s) K - recorded m s).
Proof. exact pool_total. Qed.
Print Assumptions C86_pool_tokens_as_recorded.

(** 333 pool tokens are made for a user who pays with the two assets; then 500 are redeemed. *)
Definition pt_K : list Z := Eval vm_compute in map fst z1.
Lemma pool_token_in s v t : ptoken s v = Some t -> In v (map fst s).
Proof.
  unfold ptoken, pget. induction s as [|[k a] s IH]; cbn [pfind map fst]; [discriminate|]. destruct (Z.eqb_spec k v); [left; congruence|right; auto].
Qed.
Example C86_case : penv_ok pe /\ standard pe default_impl /\ preach pe default_impl z1 /\ honest pe exec_metas create_data /\ pool_entry pe default_impl z1 exec_metas create_data = Ok z2 /\
  honest pe exec_metas redeem_data /\ pool_entry pe default_impl z2 exec_metas redeem_data = Ok z3 /\ pool_holders z1 pt_K /\
  map (fun s => recorded 101 s) [z1; z2; z3] = [1000; 1333; 835] /\ map (fun s => zsum (pool_holding 101 s) pt_K) [z1; z2; z3] = [1000; 1333; 835] /\
  zsum (pool_holding 50 z1) pt_K = zsum (pool_holding 50 z3) pt_K /\ 0 < zsum (pool_holding 50 z1) pt_K /\ pool_holding 50 z1 102 <> pool_holding 50 z3 102.
Proof.
  split; [exact pe_ok|]. split; [left; reflexivity|]. split; [exact z1_reach|]. split; [tx|]. split; [exact z2_run|]. split; [tx|]. split; [exact z3_run|].
  split; [|vm_compute; repeat split; discriminate]. split; [vm_compute; repeat constructor; cbn; intuition discriminate|]. intros v t T. apply pool_token_in in T. exact T.
Qed.
