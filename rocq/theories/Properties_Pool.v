(** Pools: fees (C39), what pool tokens are worth (C40), administration (C41), the ownership assertion (C44), the
    encoding of states and requests (C49) and quotes (C50). *)
From Verif Require Import Base BaseProofs Fees Core Instr InstrProofs Store Borsh PoolStore Pool AdminPool BorshProofs PoolFees PoolFacts PoolExec PoolWorld PoolInv PoolBack PoolMain AssertOwner PoolQuote ExamplePool WireSpec PoolWireSpec PoolWire.

(** * C39: fees *)
(** The fee of every rate and amount: refused outside 150..999999 per million; otherwise the shares below, unless twice
    the whole fee does not fit 64 bits. *)
Theorem C39_fee_schedule rate tokens : u64 tokens ->
  fees_of rate tokens =
  if (rate <? 150) || (1000000 <=? rate) then Err EInvalidArgument
  else if whole_fee rate tokens * 2 <? B64 then Ok (mkFees (lqd_share rate tokens) (init_share rate tokens) (ref_share rate tokens)) else Panic.
Proof. exact (fees_of_spec rate tokens). Qed.
Print Assumptions C39_fee_schedule.
(** The whole fee is rounded up; the shares are not negative, add up to it, and the protocol gets its minimum. *)
Theorem C39_shares rate tokens : 150 <= rate < 1000000 -> 0 <= tokens ->
  (whole_fee rate tokens - 1) * 1000000 < tokens * rate <= whole_fee rate tokens * 1000000 /\ whole_fee rate tokens <= tokens /\
  0 <= lqd_share rate tokens /\ 0 <= ref_share rate tokens /\ 0 <= init_share rate tokens /\
  lqd_share rate tokens + ref_share rate tokens + init_share rate tokens = whole_fee rate tokens /\
  tokens <= lqd_share rate tokens * 10000 /\ whole_fee rate tokens * 2 / 5 <= lqd_share rate tokens /\ ref_share rate tokens * 2 <= lqd_share rate tokens.
Proof. exact (shares_split rate tokens). Qed.
Print Assumptions C39_shares.
(** What a creation or redemption charges: nothing when paid from the protocol's own fee account, else the schedule
    without the shares that would go back to the payer. *)
Theorem C39_charged cx st n f pt ua who lqd ini ref : u64 n -> cx_user cx = Some (pt, ua, who) -> cx_fees cx = Some (lqd, ini, ref) -> get_fees cx st n = Ok f ->
  150 <= ps_rate st < 1000000 /\
  f = (if lqd =? pt then mkFees 0 0 0
       else mkFees (lqd_share (ps_rate st) n) (if ini =? pt then 0 else init_share (ps_rate st) n) (if ref =? pt then 0 else ref_share (ps_rate st) n)).
Proof. exact (fun N U F H => match get_fees_spec cx st n f pt ua who lqd ini ref N U F H with conj a b => conj b a end). Qed.
Print Assumptions C39_charged.
Example C39_case : u64 333 /\ 150 <= 2500 < 1000000 /\ fees_of 2500 333 = Ok (mkFees 1 0 0) /\ fees_of 2500 1000000 = Ok (mkFees 1000 1000 500) /\ fees_of 999999 (B64 - 1) = Panic /\ fees_of 149 5 = Err EInvalidArgument.
Proof. split; [vm_compute; intuition discriminate|]. split; [lia|]. repeat split. Qed.

(** * C40: creating and redeeming *)
(** A creation of [n] tokens: every balance and supply afterwards. *)
Theorem C40_creation e P s s' ms n : penv_ok e -> standard e P -> preach e P s -> u64 n -> honest e ms (put_request (RExecute (Create n))) ->
  pool_entry e P s ms (put_request (RExecute (Create n))) = Ok s' ->
  exists st c, ms = call_metas c /\ pool_at e s (mk (ca_pool c)) st /\ call_ok s st c /\ 0 < supply s (ps_mint st) /\
    (forall k, bal s' k = bal s k + net (create_moves s st c n) k) /\
    (forall m, supply s' m = supply s m + if ps_mint st =? m then n else 0) /\
    (ps_assets st <> [] -> mk_signer (ca_who c) = true) /\ (forall u, In u (map mk (ca_user c)) -> can_spend s u (mk (ca_who c))).
Proof. exact (fun EOK STD => creation_effect e P EOK STD s s' ms n). Qed.
Print Assumptions C40_creation.
(** A redemption of [n] tokens. *)
Theorem C40_redemption e P s s' ms n : penv_ok e -> standard e P -> preach e P s -> u64 n -> honest e ms (put_request (RExecute (Redeem n))) ->
  pool_entry e P s ms (put_request (RExecute (Redeem n))) = Ok s' ->
  exists st c, ms = call_metas c /\ pool_at e s (mk (ca_pool c)) st /\ call_ok s st c /\ 0 < supply s (ps_mint st) /\
    (forall k, bal s' k = bal s k + net (redeem_moves s st c n) k) /\
    (forall m, supply s' m = supply s m - if ps_mint st =? m then n - fee_sum (pool_fee st c n) else 0) /\
    mk_signer (ca_who c) = true /\ can_spend s (mk (ca_pt c)) (mk (ca_who c)).
Proof. exact (fun EOK STD => redemption_effect e P EOK STD s s' ms n). Qed.
Print Assumptions C40_redemption.
(** Over any history in which the pool's administrator does nothing: each asset per pool token never falls. *)
Theorem C40_backing_never_falls e P s s' k st : penv_ok e -> standard e P -> preach e P s -> pool_at e s k st -> NoDup (vaults st) -> all_held s st -> user_steps e P st s s' ->
  all_held s' st /\
  (forall v, In v (vaults st) -> bal s v * supply s' (ps_mint st) <= bal s' v * supply s (ps_mint st)) /\
  (supply s (ps_mint st) = 0 -> supply s' (ps_mint st) = 0).
Proof. exact (fun EOK STD RE PK ND AH U => backing e P EOK STD st s s' k U (preach_ok e P EOK STD s RE) PK ND AH). Qed.
Print Assumptions C40_backing_never_falls.
(** So no history of users takes assets out without destroying pool tokens. *)
Theorem C40_no_free_assets e P s s' k st : penv_ok e -> standard e P -> preach e P s -> pool_at e s k st -> NoDup (vaults st) -> all_held s st -> user_steps e P st s s' ->
  0 < supply s (ps_mint st) <= supply s' (ps_mint st) -> forall v, In v (vaults st) -> bal s v <= bal s' v.
Proof. exact (fun EOK STD RE PK ND AH U S v V => no_free_assets st s s' v (proj2 (backing e P EOK STD st s s' k U (preach_ok e P EOK STD s RE) PK ND AH)) S V (so_bal e s (proj1 (preach_ok e P EOK STD s RE)) v)). Qed.
Print Assumptions C40_no_free_assets.
(** Creating and then redeeming no more than was created leaves every vault with at least what it had. *)
Theorem C40_round_trip e P s s1 s2 ms ms' n n' k st : penv_ok e -> standard e P -> preach e P s -> pool_at e s k st -> NoDup (vaults st) -> all_held s st -> u64 n -> u64 n' -> n' <= n ->
  honest e ms (put_request (RExecute (Create n))) -> no_admin st ms -> hd_error (map mk ms) = Some k -> pool_entry e P s ms (put_request (RExecute (Create n))) = Ok s1 ->
  honest e ms' (put_request (RExecute (Redeem n'))) -> no_admin st ms' -> hd_error (map mk ms') = Some k -> pool_entry e P s1 ms' (put_request (RExecute (Redeem n'))) = Ok s2 ->
  forall v, In v (vaults st) -> bal s v <= bal s2 v.
Proof. exact (fun EOK STD => round_trip e P EOK STD s s1 s2 ms ms' n n' k st). Qed.
Print Assumptions C40_round_trip.
(** Nothing keeps a pool from listing one vault twice; redemptions then pay it out twice. *)
Theorem C40_duplicate_vaults_refuted : exists e P s s' k st v, penv_ok e /\ standard e P /\ preach e P s /\ pool_at e s k st /\ all_held s st /\ user_steps e P st s s' /\ In v (vaults st) /\
  bal s' v * supply s (ps_mint st) < bal s v * supply s' (ps_mint st).
Proof.
  exists pe, default_impl, y1, y2, 100, y_state, 102. split; [exact pe_ok|]. split; [left; reflexivity|]. split; [exact y1_reach|]. split; [exact y1_pool|].
  split. { intros v [<-|[<-|[]]]; (eexists; split; [vm_compute; reflexivity|cbn; auto]). }
  split. { eapply Us_tx; [apply Us_nil| | |exact y2_run]; [tx|intros m M S; discriminate]. }
  split; [left; reflexivity|]. vm_compute. reflexivity.
Qed.
Print Assumptions C40_duplicate_vaults_refuted.
(** Nor does it require the vaults to be the pool's own: a vault of another owner who only delegates to the pool is accepted. *)
Theorem C40_vault_owner_refuted : exists e P s k st v t, penv_ok e /\ standard e P /\ preach e P s /\ pool_at e s k st /\ In v (vaults st) /\ ptoken s v = Some t /\ t_owner t <> ps_signer st.
Proof.
  exists pe, default_impl, x1, 100, z_state, 102. eexists. split; [exact pe_ok|]. split; [left; reflexivity|].
  split. { eapply tx_step; [apply Pr_begin; exact begin_x0| |exact x1_run]. tx. }
  split; [apply at_check; vm_compute; reflexivity|]. split; [left; reflexivity|]. split; [vm_compute; reflexivity|discriminate].
Qed.
Print Assumptions C40_vault_owner_refuted.
Example C40_case : penv_ok pe /\ standard pe default_impl /\ preach pe default_impl z1 /\ pool_at pe z1 100 z_state /\ NoDup (vaults z_state) /\ all_held z1 z_state /\ user_steps pe default_impl z_state z1 z3 /\
  honest pe exec_metas (put_request (RExecute (Create 333))) /\ pool_entry pe default_impl z1 exec_metas (put_request (RExecute (Create 333))) = Ok z2 /\
  honest pe exec_metas (put_request (RExecute (Redeem 500))) /\ pool_entry pe default_impl z2 exec_metas (put_request (RExecute (Redeem 500))) = Ok z3 /\
  map (bal z1) [102; 103; 120] = [5000; 777; 1000] /\ map (bal z2) [102; 103; 120] = [6665; 1036; 1332] /\ map (bal z3) [102; 103; 120] = [4175; 649; 832] /\
  supply z1 101 = 1000 /\ supply z2 101 = 1333 /\ supply z3 101 = 835.
Proof.
  split; [exact pe_ok|]. split; [left; reflexivity|]. split; [exact z1_reach|]. split; [exact z1_pool|]. split; [repeat constructor; cbn; intuition discriminate|]. split; [exact z1_held|]. split; [exact z1_z3|].
  split; [tx|]. split; [exact z2_run|]. split; [tx|]. split; [exact z3_run|]. repeat split; vm_compute; reflexivity.
Qed.
Example C40_round_trip_case : exists s, pool_entry pe default_impl z2 exec_metas (put_request (RExecute (Redeem 333))) = Ok s /\ no_admin z_state exec_metas /\ hd_error (map mk exec_metas) = Some 100 /\
  map (bal s) [102; 103; 120] = [5005; 778; 999] /\ map (bal z1) [102; 103; 120] = [5000; 777; 1000].
Proof. eexists. split; [vm_compute; reflexivity|]. split; [intros m M S; discriminate|]. repeat split; vm_compute; reflexivity. Qed.

(** * C41: the administered pool *)
(** A transaction leaves a pool's state as it was unless its administrator signed. *)
Theorem C41_only_admin e s s' ms b k st : penv_ok e -> preach e (admin_impl e) s -> honest e ms b -> pool_entry e (admin_impl e) s ms b = Ok s' -> pool_at e s k st ->
  pool_at e s' k st \/ exists m, In m ms /\ mk_signer m = true /\ ps_admin st = Some (mk m).
Proof. exact (fun EOK => only_admin e EOK s s' ms b k st). Qed.
Print Assumptions C41_only_admin.
(** Over any history in which the administrator does nothing the state stays. *)
Theorem C41_user_history e P s s' k st : penv_ok e -> standard e P -> preach e P s -> pool_at e s k st -> user_steps e P st s s' -> pool_at e s' k st.
Proof. exact (fun EOK STD RE PK U => proj2 (user_state e P EOK STD st s s' k U (preach_ok e P EOK STD s RE) PK)). Qed.
Print Assumptions C41_user_history.
(** A paused pool answers no creation, redemption or quote. *)
Theorem C41_paused_blocks e s s' ms b k st a : penv_ok e -> preach e (admin_impl e) s -> honest e ms b -> pool_at e s k st -> flag_is st true -> hd_error (map mk ms) = Some k ->
  whole (get_request e) b = Some (RExecute a) \/ whole (get_request e) b = Some (RGetBasket a) -> pool_entry e (admin_impl e) s ms b <> Ok s'.
Proof. exact (fun EOK => paused_blocks e EOK s s' ms b k st a). Qed.
Print Assumptions C41_paused_blocks.
(** Every administrative request, with its exact effect ([admin_does]) and the signature it needs. *)
Theorem C41_requests e s s' ms b : penv_ok e -> preach e (admin_impl e) s -> honest e ms b -> whole (get_request e) b = None -> pool_entry e (admin_impl e) s ms b = Ok s' ->
  exists k st q st' s1, whole get_admin b = Some q /\ admin_tx e s s' ms k st q st' s1 /\ pool_at e s' k st'.
Proof. exact (fun EOK => admin_request_effect e EOK s s' ms b). Qed.
Print Assumptions C41_requests.
(** Only the administrator's Unpause ends a pause, and only while no vault is lent. *)
Theorem C41_unpausing e s s' ms b k st st' : penv_ok e -> preach e (admin_impl e) s -> honest e ms b -> pool_entry e (admin_impl e) s ms b = Ok s' ->
  pool_at e s k st -> flag_is st true -> pool_at e s' k st' -> flag_is st' false ->
  whole get_admin b = Some AUnpause /\ (exists m, In m ms /\ mk_signer m = true /\ ps_admin st = Some (mk m)) /\ (forall v, In v (vaults st) -> vault_free s v).
Proof. exact (fun EOK => unpausing e EOK s s' ms b k st st'). Qed.
Print Assumptions C41_unpausing.
(** Every pool ever stored: its address, its mint's authority and its fee rate. *)
Theorem C41_always e P s k st : penv_ok e -> standard e P -> preach e P s -> pool_at e s k st ->
  pe_pda e k (ps_nonce st) = Some (ps_signer st) /\ minted_by s (ps_mint st) (ps_signer st) /\ 150 <= ps_rate st < 1000000.
Proof. exact (fun EOK STD RE PK => proj2 (preach_ok e P EOK STD s RE) k st PK). Qed.
Print Assumptions C41_always.
(** An unpaused pool can still have a lent vault: remove it, unpause, add it again. *)
Theorem C41_delegates_refuted : exists e s k st v t, penv_ok e /\ preach e (admin_impl e) s /\ pool_at e s k st /\ flag_is st false /\ In v (vaults st) /\ ptoken s v = Some t /\ t_owner t = ps_signer st /\
  t_delegate t = Some 95 /\ t_delegated t = 1000 /\ 95 <> ps_signer st.
Proof.
  exists pe, a6, 100, (a_state [mkAsset 50 102; mkAsset 51 103; mkAsset 52 104] false), 104. eexists. split; [exact pe_ok|]. split; [exact a6_reach|]. split; [exact a6_pool|]. split; [reflexivity|].
  split; [right; right; left; reflexivity|]. split; [vm_compute; reflexivity|]. repeat split. discriminate.
Qed.
Print Assumptions C41_delegates_refuted.
Example C41_case : penv_ok pe /\ preach pe A a4 /\ pool_at pe a4 100 (a_state [mkAsset 50 102; mkAsset 51 103] true) /\ flag_is (a_state [mkAsset 50 102; mkAsset 51 103] true) true /\
  whole (get_request pe) create_data = Some (RExecute (Create 333)) /\ hd_error (map mk exec_metas) = Some 100 /\
  honest pe (admin_metas [102; 103]) (put_admin AUnpause) /\ pool_entry pe A a4 (admin_metas [102; 103]) (put_admin AUnpause) = Ok a5 /\
  pool_at pe a5 100 (a_state [mkAsset 50 102; mkAsset 51 103] false) /\ flag_is (a_state [mkAsset 50 102; mkAsset 51 103] false) false /\
  whole (get_request pe) (put_admin AUnpause) = None /\ (exists s, pool_entry pe A a5 exec_metas create_data = Ok s) /\ (exists x, pool_entry pe A a4 exec_metas create_data = Err x) /\
  (exists x, pool_entry pe A a5 (m_ 100 :: m_s 91 :: nil) (put_admin APause) = Err x).
Proof.
  split; [exact pe_ok|]. split; [exact a4_reach|]. split; [exact a4_pool|]. split; [reflexivity|]. split; [vm_compute; reflexivity|]. split; [reflexivity|]. split; [tx|]. split; [exact a5_run|]. split; [exact a5_pool|].
  split; [reflexivity|]. split; [vm_compute; reflexivity|]. repeat split; eexists; vm_compute; reflexivity.
Qed.

(** * C44: the ownership assertion *)
Theorem C44_assert_owner owners data : is_bytes data ->
  (assert_owner owners data = Ok tt <-> exists o r, owners = o :: r /\ data = key_le o /\ wf_key o).
Proof. exact (assert_owner_ok owners data). Qed.
Print Assumptions C44_assert_owner.
Example C44_case : assert_owner [spl_id] (key_le spl_id) = Ok tt /\ assert_owner [spl_id; 5] (key_le spl_id) = Ok tt /\ assert_owner [5] (key_le spl_id) = Err EOther /\ assert_owner [spl_id] (key_le spl_id ++ [0]) = Err EAssert /\ is_bytes (key_le spl_id).
Proof. repeat split; try (vm_compute; reflexivity). apply bytes_check. vm_compute. reflexivity. Qed.

(** * C49: the encoding of pool states and requests *)
(** Every state survives being stored, and bytes that read as a state are its encoding followed by the rest. *)
Theorem C49_state_codec e : (forall st r, wf_state e st -> get_state e (put_state st ++ r) = Some (st, r)) /\
  (forall b st r, is_bytes b -> get_state e b = Some (st, r) -> wf_state e st /\ b = put_state st ++ r /\ is_bytes r).
Proof. exact (state_ok e). Qed.
Print Assumptions C49_state_codec.
(** Every request has exactly one encoding, and nothing else is read as it. *)
Theorem C49_request_codec e : (forall q, wf_request e q -> whole (get_request e) (put_request q) = Some q) /\
  (forall b q, is_bytes b -> whole (get_request e) b = Some q -> wf_request e q /\ b = put_request q).
Proof. exact (whole_ok _ _ _ (request_ok e)). Qed.
Print Assumptions C49_request_codec.
Theorem C49_admin_codec : (forall q, wf_admin q -> whole get_admin (put_admin q) = Some q) /\
  (forall b q, is_bytes b -> whole get_admin b = Some q -> wf_admin q /\ b = put_admin q).
Proof. exact (whole_ok _ _ _ admin_ok). Qed.
Print Assumptions C49_admin_codec.
(** The bytes are those of the tables in PoolWireSpec.v, which name every field with its width: a state, ... *)
Theorem C49_state_format : forall e b st r, is_bytes b -> (get_state e b = Some (st, r) <-> wf_state e st /\ exists x, b = x ++ r /\ written (state_fields st) x).
Proof. exact state_format. Qed.
Print Assumptions C49_state_format.
(** ... a request, a request of the administrator, and the paused flag of the admin-controlled pool. *)
Theorem C49_request_format : forall e b q, is_bytes b -> (whole (get_request e) b = Some q <-> wf_request e q /\ written (request_fields q) b).
Proof. exact request_format. Qed.
Print Assumptions C49_request_format.
Theorem C49_admin_format : forall b q, is_bytes b -> (whole get_admin b = Some q <-> wf_admin q /\ written (admin_fields q) b).
Proof. exact admin_format. Qed.
Print Assumptions C49_admin_format.
Theorem C49_paused_format : forall st p, is_bytes (ps_custom st) -> (read_paused st = Ok p <-> written (paused_fields p) (ps_custom st)).
Proof. exact paused_format. Qed.
Print Assumptions C49_paused_format.
Example C49_case : wf_request pe (RExecute (Create 333)) /\ is_bytes create_data /\ whole (get_request pe) create_data = Some (RExecute (Create 333)) /\ whole (get_request pe) (create_data ++ [0]) = None /\
  wf_state pe z_state /\ get_state pe (put_state z_state ++ [9; 9]) = Some (z_state, [9; 9]) /\ wf_admin (AApprove 1000).
Proof.
  split; [vm_compute; intuition discriminate|]. split; [apply bytes_check; vm_compute; reflexivity|]. split; [vm_compute; reflexivity|]. split; [vm_compute; reflexivity|].
  split; [exact (pool_wf pe _ _ _ z1_pool)|]. split; [vm_compute; reflexivity|]. vm_compute. intuition discriminate.
Qed.

(** * C50: quotes *)
(** A quote writes to the return buffer each vault's portion, and nothing else changes. *)
Theorem C50_quote e P s s' ms a : penv_ok e -> standard e P -> preach e P s -> wf_action a -> honest e ms (put_request (RGetBasket a)) -> pool_entry e P s ms (put_request (RGetBasket a)) = Ok s' ->
  exists k st buf prog d, hd_error (map mk ms) = Some k /\ pool_at e s k st /\ 0 < supply s (ps_mint st) /\ (exists n, a = Create n \/ a = Redeem n) /\
    nth_error (map mk ms) (3 + length (ps_assets st)) = Some buf /\ pa_prog (pget s buf) = prog /\ prog <> spl_id /\ prog <> pe_prog e /\
    pe_retbuf e prog (pa_data (pget s buf)) (le 8 0 ++ put_basket (quote s st a)) = Ok d /\ s' = pset s buf d.
Proof. exact (fun EOK STD => quote_effect e P EOK STD s s' ms a). Qed.
Print Assumptions C50_quote.
(** The quote of a redemption leaves out the fee: redeeming pays less. *)
Theorem C50_redemption_quote_refuted : exists e P s s' ms n k st, penv_ok e /\ standard e P /\ preach e P s /\ pool_at e s k st /\ honest e ms (put_request (RExecute (Redeem n))) /\
  pool_entry e P s ms (put_request (RExecute (Redeem n))) = Ok s' /\ quote s st (Redeem n) = [2500; 388] /\ map (fun v => bal s v - bal s' v) (vaults st) = [2490; 387].
Proof.
  exists pe, default_impl, z2, z3, exec_metas, 500, 100, z_state. split; [exact pe_ok|]. split; [left; reflexivity|]. split; [exact z2_reach|].
  split; [apply at_check; vm_compute; reflexivity|]. split; [tx|]. split; [exact z3_run|]. split; vm_compute; reflexivity.
Qed.
Print Assumptions C50_redemption_quote_refuted.
Example C50_case : exists s', honest pe (map m_ [100; 101; 102; 103; sg; 130; 0]) (put_request (RGetBasket (Create 333))) /\
  pool_entry pe default_impl z1 (map m_ [100; 101; 102; 103; sg; 130; 0]) (put_request (RGetBasket (Create 333))) = Ok s' /\ quote z1 z_state (Create 333) = [1665; 259].
Proof. eexists. split; [tx|]. split; vm_compute; reflexivity. Qed.
