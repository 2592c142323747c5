(** Using a pool (C62): creations and redemptions that must go through, the pool that nobody administers, and who
    can still stop it. *)
From Verif Require Import Base BaseProofs Fees Core Instr InstrProofs Store Borsh PoolStore Pool AdminPool BorshProofs PoolFees PoolFacts PoolExec PoolWorld PoolInv PoolBack PoolUseSpec PoolUse ExamplePool.

(** A creation of [n] tokens is carried out when the pool runs, the accounts are the right ones and in order
    ([prepared]), the user can pay, and there is room. *)
Theorem C62_creation_goes_through e P s st c n : penv_ok e -> standard e P -> preach e P s -> running P st -> pool_at e s (mk (ca_pool c)) st -> prepared s st c -> 0 <= n <= I64_MAX -> 0 < supply s (ps_mint st) -> supply s (ps_mint st) + n < B64 ->
  Forall2 (fun a u => let q := portion true (bal s (as_vault a)) n (supply s (ps_mint st)) in wallet s (mk u) (as_mint a) (mk (ca_who c)) /\ q <= bal s (mk u) /\ q <= I64_MAX /\ room s (as_vault a) q) (ps_assets st) (ca_user c) ->
  room s (ps_lqd st) n -> room s (ps_init st) n -> room s (mk (ca_ref c)) n -> room s (mk (ca_pt c)) n ->
  exists s', pool_entry e P s (call_metas c) (put_request (RExecute (Create n))) = Ok s'.
Proof. exact (fun EOK STD => creation_goes e P EOK STD s st c n). Qed.
Print Assumptions C62_creation_goes_through.
(** A holder of [n] tokens can redeem them. *)
Theorem C62_redemption_goes_through e P s st c n : penv_ok e -> standard e P -> preach e P s -> running P st -> pool_at e s (mk (ca_pool c)) st -> prepared s st c -> 0 <= n <= I64_MAX -> n <= supply s (ps_mint st) < B64 -> 0 < supply s (ps_mint st) ->
  wallet s (mk (ca_pt c)) (ps_mint st) (mk (ca_who c)) -> n <= bal s (mk (ca_pt c)) ->
  Forall2 (fun a u => let q := portion false (bal s (as_vault a)) (n - fee_sum (pool_fee st c n)) (supply s (ps_mint st)) in q <= I64_MAX /\ room s (mk u) q) (ps_assets st) (ca_user c) ->
  room s (ps_lqd st) n -> room s (ps_init st) n -> mk (ca_ref c) = mk (ca_pt c) \/ room s (mk (ca_ref c)) n ->
  exists s', pool_entry e P s (call_metas c) (put_request (RExecute (Redeem n))) = Ok s'.
Proof. exact (fun EOK STD => redemption_goes e P EOK STD s st c n). Qed.
Print Assumptions C62_redemption_goes_through.
(** The simple pool (nothing overridden) has no ruler: whoever does whatever, its state stays as it was created, its vaults
    stay its own and the assets behind each pool token never fall. *)
Theorem C62_no_ruler e s s' k st : penv_ok e -> preach e default_impl s -> pool_at e s k st -> later e default_impl s s' ->
  pool_at e s' k st /\ ps_admin st = None /\
  (NoDup (vaults st) -> all_held s st -> all_held s' st /\
    (forall v, In v (vaults st) -> bal s v * supply s' (ps_mint st) <= bal s' v * supply s (ps_mint st)) /\ (supply s (ps_mint st) = 0 -> supply s' (ps_mint st) = 0)).
Proof. exact (fun EOK R PK L => match no_ruler e EOK s s' k st R PK L with conj a (conj b c) => conj a (conj (proj1 b) c) end). Qed.
Print Assumptions C62_no_ruler.
(** Without the fee account of the pool's creator nothing can be created or redeemed. *)
Theorem C62_fee_account_missing e P s ms n k st s' : penv_ok e -> standard e P -> preach e P s -> pool_at e s k st -> ptoken s (ps_init st) = None -> hd_error (map mk ms) = Some k -> u64 n ->
  pool_entry e P s ms (put_request (RExecute (Create n))) <> Ok s' /\ pool_entry e P s ms (put_request (RExecute (Redeem n))) <> Ok s'.
Proof. exact (fun EOK STD R => stopped e P s ms n k st s' (proj1 (preach_ok e P EOK STD s R))). Qed.
Print Assumptions C62_fee_account_missing.
(** So holders cannot always leave: the creator of a simple pool, who has no rights over it, closes their fee account (here
    account 111), and the redemption that was fine a moment ago is refused, to everybody and however it is put. *)
Theorem C62_holders_can_leave_refuted : exists e s s' k st, penv_ok e /\ preach e default_impl s /\ pool_at e s k st /\ rely e s s' /\ (forall x, x <> ps_init st -> pget s' x = pget s x) /\ pool_at e s' k st /\
  (exists ms n s1, honest e ms (put_request (RExecute (Redeem n))) /\ u64 n /\ 0 < n /\ pool_entry e default_impl s ms (put_request (RExecute (Redeem n))) = Ok s1) /\
  forall ms n s1, hd_error (map mk ms) = Some k -> u64 n -> pool_entry e default_impl s' ms (put_request (RExecute (Redeem n))) <> Ok s1.
Proof.
  exists pe, z1, zc, 100, z_state. split; [exact pe_ok|]. split; [exact z1_reach|]. split; [exact z1_pool|]. split; [exact zc_rely|]. split; [intros x X; rewrite zc_get; replace (111 =? x) with false; [reflexivity|symmetry; apply Z.eqb_neq; intros <-; apply X; reflexivity]|].
  split; [exact zc_pool|]. split.
  - eexists exec_metas, 500, _. split; [tx|]. split; [vm_compute; split; [discriminate|reflexivity]|]. split; [reflexivity|]. vm_compute. reflexivity.
  - intros ms n s1 HD N. apply (stopped pe default_impl zc ms n 100 z_state s1); try assumption; [apply (re_ok _ _ _ zc_rely)|exact zc_pool|vm_compute; reflexivity].
Qed.
Print Assumptions C62_holders_can_leave_refuted.

Definition her_call : call := mkCall (m_ 100) (m_ 101) [m_ 102; m_ 103] (m_ sg) (m_ 120) [m_ 121; m_ 122] (m_s 70) (m_ 110) (m_ 111) (m_ 112) (m_ spl_id) [].
Example C62_case : penv_ok pe /\ standard pe default_impl /\ preach pe default_impl z1 /\ running default_impl z_state /\ pool_at pe z1 (mk (ca_pool her_call)) z_state /\ prepared z1 z_state her_call /\
  0 <= 333 <= I64_MAX /\ 333 <= supply z1 (ps_mint z_state) < B64 /\ supply z1 (ps_mint z_state) + 333 < B64 /\ wallet z1 (mk (ca_pt her_call)) (ps_mint z_state) (mk (ca_who her_call)) /\ 333 <= bal z1 (mk (ca_pt her_call)) /\
  Forall2 (fun a u => let q := portion true (bal z1 (as_vault a)) 333 (supply z1 (ps_mint z_state)) in wallet z1 (mk u) (as_mint a) (mk (ca_who her_call)) /\ q <= bal z1 (mk u) /\ q <= I64_MAX /\ room z1 (as_vault a) q) (ps_assets z_state) (ca_user her_call) /\
  Forall2 (fun a u => let q := portion false (bal z1 (as_vault a)) (333 - fee_sum (pool_fee z_state her_call 333)) (supply z1 (ps_mint z_state)) in q <= I64_MAX /\ room z1 (mk u) q) (ps_assets z_state) (ca_user her_call) /\
  room z1 (ps_lqd z_state) 333 /\ room z1 (ps_init z_state) 333 /\ room z1 (mk (ca_ref her_call)) 333 /\ room z1 (mk (ca_pt her_call)) 333 /\ later pe default_impl z1 z3 /\ NoDup (vaults z_state) /\ all_held z1 z_state.
Proof.
  split; [exact pe_ok|]. split; [left; reflexivity|]. split; [exact z1_reach|]. split; [left; reflexivity|]. split; [exact z1_pool|].
  split.
  { constructor; try reflexivity; try (unfold open_at, wallet; eexists; vm_compute; repeat split; discriminate).
    - constructor; try reflexivity.
      + eexists. split; vm_compute; reflexivity.
      + repeat constructor; eexists; vm_compute; repeat split; auto.
    - repeat constructor; try (vm_compute; discriminate); try (unfold open_at, wallet; eexists; vm_compute; repeat split; discriminate).
    - vm_compute. repeat constructor; cbn; intuition discriminate. }
  split; [vm_compute; split; discriminate|]. split; [vm_compute; split; [discriminate|reflexivity]|]. split; [vm_compute; reflexivity|].
  split; [unfold wallet; eexists; vm_compute; repeat split; discriminate|]. split; [vm_compute; discriminate|].
  split; [repeat constructor; try (unfold open_at, wallet; eexists; vm_compute; repeat split; discriminate); vm_compute; try discriminate; reflexivity|].
  split; [repeat constructor; vm_compute; try discriminate; reflexivity|].
  do 4 (split; [vm_compute; reflexivity|]). split.
  { apply (later_step _ _ _ z2); [apply (later_step _ _ _ z1); [constructor|]|]; eapply Step_tx; [|exact z2_run| |exact z3_run]; tx. }
  split; [repeat constructor; cbn; intuition discriminate|exact z1_held].
Qed.
