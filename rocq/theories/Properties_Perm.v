(** C60: the example program for permissioned markets. *)
From Coq Require Import Sorting.Sorted.
From Verif Require Import Base BaseProofs Fees ListSum Codec Critbit CritbitSlab Market Slots Matching MatchSteps Ledger MatchSpec Core CoreNew Instr InstrProofs Store Process StoreProofs World WorldInv WorldSpec WorldFacts WorldMain WorldExample WorldCancel Proxy ProxySpec ProxyProofs ProxyMain ProxyMore ExampleProxy Client Permissioned PermSpec PermProofs PermMain ExamplePerm.

(** ** A market that names the program for opening, pruning and consuming *)
(** Nothing sent to the dex itself changes a user's account. *)
Theorem C60_not_around_the_program : forall e, env_ok e -> forall px, px_ok e px -> forall prune, prune_ok e px prune -> forall s c i ms s' k m x oo, hosted e px prune s ->
  dexd e s k = Some (DMarket m) -> set_up px prune k m -> in_use e s k x oo -> outside px prune ms -> process e c s i ms = Ok s' -> dexd e s' x = dexd e s x.
Proof. exact set_up_direct. Qed.
Print Assumptions C60_not_around_the_program.
(** Through the program a user's account changes only at the signed wish of that user, showing the token, or by pruning and consuming, not showing it. *)
Theorem C60_only_with_the_token : forall e, env_ok e -> forall px, px_ok e px -> forall prune, prune_ok e px prune -> forall s c ms data s' k m x oo u, hosted e px prune s ->
  dexd e s k = Some (DMarket m) -> set_up px prune k m -> in_use e s k x oo -> legal e ms -> outside px prune ms -> is_bytes data ->
  entry e px prune c s ms data = Ok s' -> dexd e s' x <> dexd e s x -> address_of px k u x ->
  exists i, asks data i /\ ((shows_token ms /\ users i /\ signed_by ms u) \/ (~ shows_token ms /\ keepers i)).
Proof. exact set_up_entry. Qed.
Print Assumptions C60_only_with_the_token.
Theorem C60_accounts_belong_to_users : forall e, env_ok e -> forall px, px_ok e px -> forall prune, prune_ok e px prune -> forall s, hosted e px prune s -> forall k m x oo,
  dexd e s k = Some (DMarket m) -> gated px k m -> in_use e s k x oo -> oo_owner oo = x /\ exists u, address_of px k u x.
Proof. exact set_up_accounts. Qed.
Print Assumptions C60_accounts_belong_to_users.
Example C60_set_up_case : env_ok ex_env /\ px_ok ex_env ex_px /\ prune_ok ex_env ex_px ex_prune /\ hosted ex_env ex_px ex_prune h3 /\ dexd ex_env h3 30 = Some (DMarket h3_m) /\ set_up ex_px ex_prune 30 h3_m /\
  in_use ex_env h3 30 p_oo h3_oo /\ address_of ex_px 30 140 p_oo /\
  h_entry h3 (map k_ [7; rent_id; 30; 33; 34; p_oo] ++ [s_ 140; k_ 32]) (1 :: pack (ICancelV2 Ask (l_key p3_ask))) <> Ok h3 /\
  (exists s', h_entry h3 (map k_ [7; rent_id; 30; 33; 34; p_oo] ++ [s_ 140; k_ 32]) (1 :: pack (ICancelV2 Ask (l_key p3_ask))) = Ok s' /\ dexd ex_env s' p_oo <> dexd ex_env h3 p_oo) /\
  h_entry h3 (map k_ [7; 999; 30; 33; 34; p_oo] ++ [s_ 140; k_ 32]) (1 :: pack (ICancelV2 Ask (l_key p3_ask))) = Err EOther /\
  h_entry h3 ms_h4 data_prune = Ok h4 /\ dexd ex_env h4 p_oo <> dexd ex_env h3 p_oo /\ ~ shows_token ms_h4 /\
  (forall s', process ex_env ex_clock h3 (ICancelV2 Ask (l_key p3_ask)) [k_ 30; k_ 33; k_ 34; k_ p_oo; s_ 140; k_ 32] <> Ok s') /\
  (exists s', process ex_env ex_clock h3 ix1 ms1 = Ok s' /\ s' <> h3) /\ outside ex_px ex_prune ms1.
Proof.
  split; [exact ex_env_ok|]. split; [exact ex_px_ok|]. split; [exact ex_prune_ok|]. split; [exact (proj1 h3_f)|]. destruct h3_set_up as (A & B & C & F). split; [exact A|]. split; [exact B|]. split; [exact C|]. split; [exact F|].
  split; [vm_compute; discriminate|]. split; [eexists; split; [vm_compute; reflexivity|vm_compute; discriminate]|]. split; [vm_compute; reflexivity|]. split; [vm_compute; reflexivity|]. split; [vm_compute; discriminate|].
  split; [unfold shows_token; vm_compute; discriminate|]. split; [intros s'; vm_compute; discriminate|]. split; [eexists; split; [vm_compute; reflexivity|discriminate]|apply outside_ok; reflexivity].
Qed.

(** ** What each call does *)
(** With the token a user's call is that of the library's proxy without it, so all of C42 applies; without it, it is refused. *)
Theorem C60_users : forall e px prune c s ms data s' i, outside px prune ms -> is_bytes data -> entry e px prune c s ms data = Ok s' -> asks data i -> users i ->
  shows_token ms /\ run e px c example_mws s (without_token ms) data = Ok s'.
Proof. exact users_need_token. Qed.
Print Assumptions C60_users.
Theorem C60_users_served : forall e px prune c s d tok acc data i n, mk tok = rent_id -> mk_signer tok = false -> asks data i -> users i -> relayed i = Some n -> (n <= length acc)%nat ->
  entry e px prune c s (d :: tok :: acc) data = run e px c example_mws s (d :: acc) data.
Proof. exact entry_is_run. Qed.
Print Assumptions C60_users_served.
(** Whatever their address could cancel, settle or close, a user showing the token can. *)
Theorem C60_accepted : forall e px prune c s d tok acc n i mi ui oi k u x s', mk tok = rent_id -> mk_signer tok = false -> wf_instr i -> spots i = Some (mi, ui, oi) -> relayed i = Some n -> (n <= length acc)%nat ->
  key_at acc mi = Some k -> signs acc ui u -> key_at acc oi = Some x -> px_open px k u (px_bump px k u) = Some x ->
  (i = ISettleFunds -> exists a t, key_at acc 9 = Some a /\ token_at s a = Some t /\ t_owner t = referral_id) ->
  forall acc', replaced ui (mkMeta x true) acc acc' -> process e c s i acc' = Ok s' -> d <> 0 ->
  entry e px prune c s (mkMeta (e_prog e) false :: tok :: acc) (d :: pack i) = Ok s'.
Proof. exact entry_accepts. Qed.
Print Assumptions C60_accepted.
(** A settlement names an account of the program's referrer. *)
Theorem C60_referral : forall e px prune c s ms data s', outside px prune ms -> is_bytes data -> anytime e s -> entry e px prune c s ms data = Ok s' -> asks data ISettleFunds ->
  exists a t, key_at ms 11 = Some a /\ token_at s a = Some t /\ t_owner t = referral_id.
Proof. exact entry_referral. Qed.
Print Assumptions C60_referral.
(** A prune and a permissioned crank are refused to those who show the token, and otherwise passed on with the address the program derives for the
    market marked as signed; the account pruned stands in for its owner. *)
Theorem C60_prune : forall e px prune c s ms data s' n, outside px prune ms -> is_bytes data -> entry e px prune c s ms data = Ok s' -> asks data (IPrune n) ->
  ~ shows_token ms /\ exists k a b acc1 acc2 acc3, key_at ms 2 = Some k /\ key_at ms 5 = Some a /\ nth_error ms 6 = Some b /\ (signed_by ms a \/ prune k = Some a) /\
    replaced 3 (mkMeta a true) (skipn 2 ms) acc1 /\ replaced 5 b acc1 acc2 /\ spread acc2 acc3 /\ process e c s (IPrune n) acc3 = Ok s'.
Proof. exact entry_pruned. Qed.
Print Assumptions C60_prune.
Theorem C60_consume : forall e px prune c s ms data s' n, outside px prune ms -> is_bytes data -> entry e px prune c s ms data = Ok s' -> asks data (IConsumePermissioned n) ->
  ~ shows_token ms /\ exists l k q a acc, skipn 2 ms = l ++ [k; q; a] /\ (signed_by ms (mk a) \/ prune (mk k) = Some (mk a)) /\
    spread (l ++ [k; q; mkMeta (mk a) true]) acc /\ process e c s (IConsumePermissioned n) acc = Ok s'.
Proof. exact entry_consumed. Qed.
Print Assumptions C60_consume.
(** An ordinary crank is passed on as it is, and anything else does nothing. *)
Theorem C60_crank : forall e px prune c s ms data s' n, outside px prune ms -> is_bytes data -> entry e px prune c s ms data = Ok s' -> asks data (IConsumeEvents n) ->
  exists acc, spread (tl ms) acc /\ process e c s (IConsumeEvents n) acc = Ok s'.
Proof. exact entry_cranked. Qed.
Print Assumptions C60_crank.
Theorem C60_nothing_else : forall e px prune c s ms data s', outside px prune ms -> is_bytes data -> entry e px prune c s ms data = Ok s' -> (forall i, ~ asks data i) -> s' = s /\ shows_token ms.
Proof. exact entry_else. Qed.
Print Assumptions C60_nothing_else.
Example C60_calls_case : h_entry h2 ms_h3 data_p3 = Ok h3 /\ h_entry h3 ms_h4 data_prune = Ok h4 /\ h_entry h4 ms_h5 data_p5 = Ok h5 /\ h_entry h5 (ms_h6 160) data_p6 = Ok h6 /\ h_entry h6 ms_h7 data_p7 = Ok h7 /\
  h_entry h5 (ms_h6 150) data_p6 = Err EOther /\ outside ex_px ex_prune ms_h3 /\ outside ex_px ex_prune ms_h4 /\ anytime ex_env h5 /\ shows_token ms_h3 /\ ~ shows_token ms_h5 /\
  asks data_prune (IPrune 4) /\ asks data_p5 (IConsumePermissioned 5) /\ asks data_p6 ISettleFunds /\ is_bytes data_prune /\ is_bytes data_p5 /\
  h_entry h3 (map k_ [7; rent_id; 30; 33; 34; h_pr; p_oo; 140; 32]) data_prune = Err EOther /\
  h_entry h3 (map k_ [7; rent_id]) (1 :: pack (ICancelByCids [1; 2])) = Ok h3 /\ h_entry h3 (map k_ [7; 999]) (1 :: pack (ICancelByCids [1; 2])) = Err EOther /\
  token_at h5 142 = Some (mkToken 17 140 970 None 0 1 None) /\ token_at h6 142 = Some (mkToken 17 140 1000 None 0 1 None) /\
  (exists s', h_entry h4 (map k_ [7; p_oo; 30; 32; 0; 0]) (1 :: pack (IConsumeEvents 5)) = Err s').
Proof.
  do 6 (split; [vm_compute; reflexivity|]). split; [apply outside_ok; reflexivity|]. split; [apply outside_ok; reflexivity|].
  split; [exact (hosted_anytime ex_env ex_env_ok ex_px ex_px_ok ex_prune ex_prune_ok h5 (proj1 h5_f))|]. split; [vm_compute; reflexivity|]. split; [unfold shows_token; vm_compute; discriminate|].
  split; [split; [vm_compute; reflexivity|discriminate]|]. split; [split; [vm_compute; reflexivity|discriminate]|]. split; [split; [vm_compute; reflexivity|discriminate]|].
  split; [apply bytes_ok; vm_compute; reflexivity|]. split; [apply bytes_ok; vm_compute; reflexivity|]. do 5 (split; [vm_compute; reflexivity|]). eexists. vm_compute. reflexivity.
Qed.

(** ** What anybody can do *)
(** Whoever shows some other account than the token, signing nothing, has any user's orders pruned ... *)
Theorem C60_anyone_prunes : forall e, env_ok e -> forall px, px_ok e px -> forall prune, prune_ok e px prune -> forall s k m A L c tok n x oo y d,
  hosted e px prune s -> history e s -> seen e s k m A L -> usable m -> set_up px prune k m -> ~ disabled m -> In (x, oo) L -> 0 <= n < 65536 -> mk tok <> rent_id -> d <> 0 ->
  places e s m (Z.min n (zlen (own_orders x (a_bids A)) + zlen (own_orders x (a_asks A)))) ->
  exists s', entry e px prune c s [mkMeta (e_prog e) false; tok; mkMeta k false; mkMeta (m_bids m) false; mkMeta (m_asks m) false; mkMeta (m_prune_auth m) false; mkMeta x false; y; mkMeta (m_event_q m) false] (d :: pack (IPrune n)) = Ok s' /\
    (exists bl al, cancels e s s' k m A L x oo bl al) /\
    (2 * (zlen (a_bids A) + zlen (a_asks A)) <= n -> cancels e s s' k m A L x oo (own_orders x (a_bids A)) (own_orders x (a_asks A))).
Proof. exact anyone_prunes. Qed.
Print Assumptions C60_anyone_prunes.
(** ... and the queue served. *)
Theorem C60_anyone_consumes : forall e, env_ok e -> forall px prune s k m A L c tok oos n d,
  history e s -> no_overflow e s -> seen e s k m A L -> usable m -> set_up px prune k m -> oos <> [] -> StronglySorted Z.lt oos -> 0 <= n < 65536 -> mk tok <> rent_id -> d <> 0 ->
  exists s', entry e px prune c s (mkMeta (e_prog e) false :: tok :: map (fun x => mkMeta x false) oos ++ [mkMeta k false; mkMeta (m_event_q m) false; mkMeta (m_crank_auth m) false]) (d :: pack (IConsumePermissioned n)) = Ok s' /\
    consumes e s s' k m A L (served (Z.to_nat n) oos (a_evs A)).
Proof. exact anyone_consumes. Qed.
Print Assumptions C60_anyone_consumes.
Example C60_anyone_case : exists A L, hosted ex_env ex_px ex_prune h3 /\ history ex_env h3 /\ no_overflow ex_env h3 /\ seen ex_env h3 30 h3_m A L /\ usable h3_m /\ ~ disabled h3_m /\ In (p_oo, h3_oo) L /\
  own_orders p_oo (a_asks A) <> [] /\ places ex_env h3 h3_m (Z.min 4 (zlen (own_orders p_oo (a_bids A)) + zlen (own_orders p_oo (a_asks A)))) /\ 2 * (zlen (a_bids A) + zlen (a_asks A)) <= 4.
Proof.
  exists (snd (fst h3_look)), (snd h3_look). destruct h3_f as (F1 & F2 & F3 & F4). split; [exact F1|]. split; [exact F2|]. split; [exact F3|]. split; [apply look_seen; vm_compute; reflexivity|].
  split; [unfold usable; vm_compute; repeat split; discriminate|]. split; [unfold disabled; vm_compute; discriminate|]. split; [left; vm_compute; reflexivity|]. split; [vm_compute; discriminate|].
  split; [eexists; split; [vm_compute; reflexivity|vm_compute; discriminate]|vm_compute; discriminate].
Qed.

(** So what the other properties say of all histories holds of histories with the program in them. *)
Theorem C60_histories : forall e, env_ok e -> forall px, px_ok e px -> forall prune, prune_ok e px prune -> forall s, hosted e px prune s -> anytime e s.
Proof. exact hosted_anytime. Qed.
Print Assumptions C60_histories.
Theorem C60_histories_guarded : forall e, env_ok e -> forall px, px_ok e px -> forall prune, prune_ok e px prune -> forall c s ms data s', legal e ms -> outside px prune ms -> is_bytes data ->
  entry e px prune c s ms data = Ok s' -> history e s -> no_overflow e s -> sized s -> history e s'.
Proof. exact entry_history. Qed.
Print Assumptions C60_histories_guarded.
Example C60_histories_case : fine h0 /\ fine h3 /\ fine h7 /\ (exists oo, dexd ex_env h7 p_oo = Some (DOO oo) /\ oo_flags oo = AF_Closed).
Proof. split; [exact h0_f|]. split; [exact h3_f|]. split; [exact h7_f|]. eexists. split; vm_compute; reflexivity. Qed.

(** ** What does not hold *)
(** Refuted: that only a user whose token was revoked is pruned.  The account shown instead of the token need not have to do with the user: in the same
    state the user's own call, with the token, is accepted, and a stranger's unsigned prune of that user is too. *)
Theorem C60_only_the_revoked_are_pruned_refuted : exists e px prune c s k m x oo u ms data s1 ms' data' n s2, env_ok e /\ px_ok e px /\ prune_ok e px prune /\ hosted e px prune s /\
  dexd e s k = Some (DMarket m) /\ set_up px prune k m /\ in_use e s k x oo /\ address_of px k u x /\
  shows_token ms /\ signed_by ms u /\ entry e px prune c s ms data = Ok s1 /\ dexd e s1 x <> dexd e s x /\
  (forall w, ~ signed_by ms' w) /\ asks data' (IPrune n) /\ entry e px prune c s ms' data' = Ok s2 /\ dexd e s2 x <> dexd e s x.
Proof.
  destruct (succeeds_ok (h_entry h3 (map k_ [7; rent_id; 30; 33; 34; p_oo] ++ [s_ 140; k_ 32]) (1 :: pack (ICancelV2 Ask (l_key p3_ask))))) as (s1 & E); [vm_compute; reflexivity|].
  exists ex_env, ex_px, ex_prune, ex_clock, h3, 30, h3_m, p_oo, h3_oo, 140, (map k_ [7; rent_id; 30; 33; 34; p_oo] ++ [s_ 140; k_ 32]), (1 :: pack (ICancelV2 Ask (l_key p3_ask))), s1, ms_h4, data_prune, 4, h4.
  split; [exact ex_env_ok|]. split; [exact ex_px_ok|]. split; [exact ex_prune_ok|]. split; [exact (proj1 h3_f)|]. destruct h3_set_up as (A & B & C & F). split; [exact A|]. split; [exact B|]. split; [exact C|]. split; [exact F|].
  split; [vm_compute; reflexivity|]. split; [exists (s_ 140); split; [cbn; auto 10|split; reflexivity]|]. split; [exact E|]. split.
  { assert (X : s1 = took (h_entry h3 (map k_ [7; rent_id; 30; 33; 34; p_oo] ++ [s_ 140; k_ 32]) (1 :: pack (ICancelV2 Ask (l_key p3_ask)))) h3) by (rewrite E; reflexivity). rewrite X. vm_compute. discriminate. }
  split; [intros w (a & IA & _ & S); unfold ms_h4 in IA; apply in_map_iff in IA; destruct IA as (z & <- & _); discriminate|]. split; [split; [vm_compute; reflexivity|discriminate]|]. split; [vm_compute; reflexivity|vm_compute; discriminate].
Qed.
Print Assumptions C60_only_the_revoked_are_pruned_refuted.
