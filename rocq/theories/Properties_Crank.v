(** The crank program: what it reads, what it sends, what that does (C58), and listing a market with it (C59).
    [keys_of], [fetched], [all_run], [distinct], [as_far_as], [has_work], [turns], [fresh], [payer_of] are defined in CrankSpec.v. *)
From Coq Require Import Sorted.
From Verif Require Import Base Fees ListSum Queue Codec Critbit CritbitSlab Market Slots Matching MatchSteps Ledger MatchSpec Core Instr Store Process StoreProofs World WorldInv WorldMain WorldSpec WorldExit PlaceSpec TakeSpec OpenSpec Layout LayoutSpec Client ClientSpec ClientWorks Crank CrankSpec CrankProofs CrankWorks CrankList WorldExample ExampleCrank.

(** C58: the addresses it reads off a market's account are the market's, the signer it derives owns the vaults; and the length it
    shows is the number of events in the queue. *)
Theorem C58_keys_read : forall e, env_ok e -> forall s k b m, history e s -> dexd e s k = Some (DMarket m) -> usable m -> LayoutSpec.holds s k b ->
  exists p, e_pda e (m_nonce m) k = Some p /\ c_keys e k b = Ok (keys_of k m p).
Proof. exact keys_read. Qed.
Print Assumptions C58_keys_read.
Example C58_keys_read_case : c_keys ex_env 10 (market_at q3 10) = Ok (keys_of 10 q3_m 900).
Proof. vm_compute. reflexivity. Qed.
Theorem C58_length_read : forall e, env_ok e -> forall s k m A L, history e s -> seen e s k m A L -> usable m -> forall b, LayoutSpec.holds s (m_event_q m) b -> c_length b = Ok (zlen (a_evs A)).
Proof. exact length_read. Qed.
Print Assumptions C58_length_read.
Example C58_length_read_case : c_length (queue_at q33 12) = Ok 33.
Proof. vm_compute. reflexivity. Qed.

(** The one-off command: nothing to do exactly when the queue is empty; otherwise the instruction goes through and consumes a start
    of the queue, namely as many events as there are accounts and four more if there are at most 32 accounts. *)
Theorem C58_once : forall e, env_ok e -> forall s k m A L, history e s -> seen e s k m A L -> usable m ->
  forall b prog p cw pw c, no_overflow e s -> ~ needs_crank_authority m -> LayoutSpec.holds s (m_event_q m) b ->
  (a_evs A = [] /\ c_once prog (keys_of k m p) cw pw b = Ok None) \/
  (a_evs A <> [] /\ exists ci s' j, c_once prog (keys_of k m p) cw pw b = Ok (Some ci) /\ process_bytes e c s (ci_data ci) (as_given ci) = Ok s' /\
     consumes e s s' k m A L (firstn j (a_evs A)) /\ (distinct (a_evs A) <= 32 -> Z.of_nat j = Z.min (zlen (a_evs A)) (distinct (a_evs A) + 4))).
Proof. exact once_works. Qed.
Print Assumptions C58_once.
Example C58_once_case : a_evs q3_A <> [] /\ distinct (a_evs q3_A) = 3 /\
  exists ci s', c_once 7 (keys_of 10 q3_m 900) 0 0 (queue_at q3 12) = Ok (Some ci) /\ process_bytes ex_env ex_clock q3 (ci_data ci) (as_given ci) = Ok s' /\ consumes ex_env q3 s' 10 q3_m q3_A q3_L (a_evs q3_A).
Proof.
  split; [discriminate|]. split; [vm_compute; reflexivity|].
  destruct (C58_once ex_env ex_env_ok q3 10 q3_m q3_A q3_L q3_h q3_seen q3_usable (queue_at q3 12) 7 900 0 0 ex_clock q3_guard q3_free (ft_events _ _ _ _ q3_fetched)) as [[E _]|[_ (ci & s' & j & E1 & E2 & E3 & E4)]]; [discriminate E|].
  exists ci, s'. split; [exact E1|]. split; [exact E2|]. assert (Z.of_nat j = 3) by (apply E4; vm_compute; discriminate). replace j with 3%nat in E3 by lia. exact E3.
Qed.
(** With 33 accounts it can be stuck: the owner of the first event sorts last and is left out, the instruction changes nothing, and
    the next call builds the same one. *)
Theorem C58_once_always_progresses_refuted : exists e s k m A L p b ci, env_ok e /\ history e s /\ no_overflow e s /\ seen e s k m A L /\ usable m /\ ~ needs_crank_authority m /\
  e_pda e (m_nonce m) k = Some p /\ LayoutSpec.holds s (m_event_q m) b /\ distinct (a_evs A) = 33 /\ c_once (e_prog e) (keys_of k m p) 0 0 b = Ok (Some ci) /\
  forall c, process_bytes e c s (ci_data ci) (as_given ci) = Ok s.
Proof.
  exists ex_env, q33, 10, q33_m, q33_A, q33_L, 900, (queue_at q33 12). eexists. split; [exact ex_env_ok|]. split; [exact q33_h|]. split; [exact q33_guard|]. split; [exact q33_seen|]. split; [exact q33_usable|]. split; [exact q33_free|].
  split; [reflexivity|]. split; [exact (ft_events _ _ _ _ q33_fetched)|]. split; [vm_compute; reflexivity|]. split; [vm_compute; reflexivity|]. intros c. vm_compute. reflexivity.
Qed.
Print Assumptions C58_once_always_progresses_refuted.

(** One turn of the loop never fails; it sends something exactly when it has a reason to; all of it goes through, and the queue is
    served as far as the accounts named and the limits allow, by one event at least. *)
Theorem C58_turn : forall e, env_ok e -> forall s k m A L, history e s -> seen e s k m A L -> usable m ->
  forall o prog p cw pw slot cranked recent eb rb c, no_overflow e s -> ~ needs_crank_authority m -> fetched s m eb rb -> 132 <= a_len (sget s (m_req_q m)) -> 0 < co_per_worker o -> 0 < co_workers o ->
  exists txs, c_turn o prog (keys_of k m p) cw pw slot cranked recent eb rb = Ok txs /\ (txs <> [] <-> has_work o slot cranked recent (a_evs A)) /\
    (has_work o slot cranked recent (a_evs A) -> zlen txs = Z.min (co_workers o) (2 * zlen (a_evs A) / co_per_worker o + 1) /\
     exists s' j, all_run e c s txs = Ok s' /\ consumes e s s' k m A L (firstn j (a_evs A)) /\ as_far_as (Z.max 1 (co_accounts o)) (zlen txs * (co_per_worker o mod 65536)) (a_evs A) j /\
       (co_per_worker o mod 65536 <> 0 -> (1 <= j)%nat)).
Proof. exact turn_works. Qed.
Print Assumptions C58_turn.
(** Three events of three accounts; two accounts may be named: the first two events go. *)
Example C58_turn_case : has_work q_opts 5 4 false (a_evs q3_A) /\ 132 <= a_len (sget q3 (m_req_q q3_m)) /\
  exists txs s', c_turn q_opts 7 (keys_of 10 q3_m 900) 0 0 5 4 false (queue_at q3 12) (reqs_at q3 11) = Ok txs /\ length txs = 2%nat /\ all_run ex_env ex_clock q3 txs = Ok s' /\
    consumes ex_env q3 s' 10 q3_m q3_A q3_L (firstn 2 (a_evs q3_A)).
Proof.
  assert (HW : has_work q_opts 5 4 false (a_evs q3_A)) by (split; [lia|split; discriminate]). assert (RL : 132 <= a_len (sget q3 (m_req_q q3_m))) by (vm_compute; discriminate). split; [exact HW|]. split; [exact RL|].
  destruct (C58_turn ex_env ex_env_ok q3 10 q3_m q3_A q3_L q3_h q3_seen q3_usable q_opts 7 900 0 0 5 4 false _ _ ex_clock q3_guard q3_free q3_fetched RL ltac:(reflexivity) ltac:(reflexivity)) as (txs & T & _ & W).
  destruct (W HW) as (LT & s' & j & R & C & (J1 & J2 & J3 & J4) & J5). exists txs, s'. split; [exact T|]. change (zlen (a_evs q3_A)) with 3 in LT. change (length (a_evs q3_A)) with 3%nat in *. unfold zlen in LT. change (Z.min (co_workers q_opts) (2 * 3 / co_per_worker q_opts + 1)) with 2 in LT.
  split; [lia|]. split; [exact R|]. change (co_per_worker q_opts mod 65536) with 2 in *. change (Z.max 1 (co_accounts q_opts)) with 2 in *. unfold zlen in J2, J4. rewrite LT in J2, J4. specialize (J5 ltac:(discriminate)).
  assert (j = 2%nat) as ->; [|exact C]. destruct j as [|[|[|[|j]]]]; try reflexivity; try lia.
  - exfalso. destruct J4 as [J4|[J4|J4]]; [discriminate J4|discriminate J4|vm_compute in J4; discriminate J4].
  - exfalso. vm_compute in J3. apply J3. reflexivity.
Qed.
(** Whatever data the instructions were built from, none of them is refused, and each consumes a start of the queue of that moment. *)
Theorem C58_stale_harmless : forall e, env_ok e -> forall s k m A L o prog p cw pw slot cranked recent eb rb txs ci c, history e s -> no_overflow e s -> seen e s k m A L -> usable m -> ~ needs_crank_authority m ->
  c_turn o prog (keys_of k m p) cw pw slot cranked recent eb rb = Ok txs -> In ci txs ->
  exists s' j, process_bytes e c s (ci_data ci) (as_given ci) = Ok s' /\ consumes e s s' k m A L (firstn j (a_evs A)).
Proof. exact stale_works. Qed.
Print Assumptions C58_stale_harmless.
Theorem C58_once_stale_harmless : forall e, env_ok e -> forall s k m A L prog p cw pw b ci c, history e s -> no_overflow e s -> seen e s k m A L -> usable m -> ~ needs_crank_authority m ->
  c_once prog (keys_of k m p) cw pw b = Ok (Some ci) ->
  exists s' j, process_bytes e c s (ci_data ci) (as_given ci) = Ok s' /\ consumes e s s' k m A L (firstn j (a_evs A)).
Proof. exact once_stale. Qed.
Print Assumptions C58_once_stale_harmless.
(** Built from the state after three orders, sent after thirty-three. *)
Example C58_stale_case : exists ci s', c_once 7 (keys_of 10 q33_m 900) 0 0 (queue_at q3 12) = Ok (Some ci) /\ process_bytes ex_env ex_clock q33 (ci_data ci) (as_given ci) = Ok s' /\ s' <> q33.
Proof. eexists. eexists. split; [vm_compute; reflexivity|]. split; [vm_compute; reflexivity|]. intros X. apply (f_equal (fun s => sget s 12)) in X. vm_compute in X. discriminate X. Qed.
(** Only where the market has a crank authority everything is refused: the program does not know that instruction. *)
Theorem C58_authority_refuses : forall e, env_ok e -> forall s k m A L o prog p cw pw slot cranked recent eb rb txs ci c s', history e s -> no_overflow e s -> seen e s k m A L -> usable m -> needs_crank_authority m ->
  c_turn o prog (keys_of k m p) cw pw slot cranked recent eb rb = Ok txs -> In ci txs -> process_bytes e c s (ci_data ci) (as_given ci) <> Ok s'.
Proof. exact turn_refused. Qed.
Print Assumptions C58_authority_refuses.
Example C58_authority_refuses_case : needs_crank_authority w12_m /\ exists txs, c_turn q_opts 7 (keys_of 30 w12_m 901) 0 0 5 4 false (queue_at w12 32) (reqs_at q3 11) = Ok txs /\ txs <> [].
Proof. split; [split; reflexivity|]. eexists. split; [vm_compute; reflexivity|discriminate]. Qed.
(** Turn after turn, the queue is emptied: by one event at least each time, every event booked once and in order. *)
Theorem C58_turns_drain : forall e, env_ok e -> forall o c k m p cw pw n s s', turns e c o k m p cw pw n s s' -> forall A L, history e s -> no_overflow e s -> sized s -> seen e s k m A L -> usable m -> ~ needs_crank_authority m ->
  132 <= a_len (sget s (m_req_q m)) -> 0 < co_per_worker o -> co_per_worker o mod 65536 <> 0 -> 0 < co_workers o ->
  exists vs, consumes e s s' k m A L vs /\ Z.min (Z.of_nat n) (zlen (a_evs A)) <= zlen vs /\ history e s' /\ no_overflow e s'.
Proof.
  exact (fun e EO o c k m p cw pw n s s' T A L H G Z SN P NC RL PW PZ WK =>
    match turns_work e EO o c k m p cw pw n s s' T A L (mkGood e s H G Z) SN P NC RL PW PZ WK with ex_intro _ vs (conj X (conj Y GD)) => ex_intro _ vs (conj X (conj Y (conj (gd_h e s' GD) (gd_g e s' GD)))) end).
Qed.
Print Assumptions C58_turns_drain.
Definition q4 : store := Eval vm_compute in match c_turn q_opts 7 (keys_of 10 q3_m 900) 0 0 5 4 false (queue_at q3 12) (reqs_at q3 11) with Ok txs => match all_run ex_env ex_clock q3 txs with Ok s => s | _ => [] end | _ => [] end.
Definition q5 : store := Eval vm_compute in match c_turn q_opts 7 (keys_of 10 q3_m 900) 0 0 6 5 false (queue_at q4 12) (reqs_at q4 11) with Ok txs => match all_run ex_env ex_clock q4 txs with Ok s => s | _ => [] end | _ => [] end.
Example C58_turns_drain_case : turns ex_env ex_clock q_opts 10 q3_m 900 0 0 2 q3 q5 /\ a_evs (snd (fst (of_look q5 10))) = [].
Proof.
  split; [|vm_compute; reflexivity]. eapply turns_one; [exact q3_fetched|apply (ltac:(lia) : 4 < 5)|vm_compute; reflexivity|vm_compute; reflexivity|].
  eapply turns_one with (eb := queue_at q4 12) (rb := reqs_at q4 11); [constructor; [split; vm_compute; reflexivity|split; vm_compute; reflexivity|vm_compute; reflexivity]|apply (ltac:(lia) : 5 < 6)|vm_compute; reflexivity|vm_compute; reflexivity|apply turns_none].
Qed.
(** A market may have a request queue too short to be read as events; the loop then stops with an error although there are events. *)
Theorem C58_serves_every_market_refuted : exists e s k m A L p o eb rb, env_ok e /\ history e s /\ no_overflow e s /\ seen e s k m A L /\ usable m /\ ~ needs_crank_authority m /\ fetched s m eb rb /\ a_evs A <> [] /\
  0 < co_per_worker o /\ 0 < co_workers o /\ c_turn o (e_prog e) (keys_of k m p) 0 0 1 0 false eb rb = Err EAssert.
Proof.
  exists ex_env, w4, 10, w4_m, w4_A, w4_L, 900, q_opts, (queue_at w4 12), (reqs_at w4 11). split; [exact ex_env_ok|]. split; [exact w4_h|]. split; [apply guard_ok; vm_compute; reflexivity|]. split; [exact w4_seen|]. split; [exact w4_usable|].
  split; [intros [X _]; discriminate X|]. split; [exact w4_fetched|]. split; [discriminate|]. split; [reflexivity|]. split; [reflexivity|]. vm_compute. reflexivity.
Qed.
Print Assumptions C58_serves_every_market_refuted.

(** C59: listing.  If one of the first hundred nonces gives an address, the addresses are unused and the payer can pay, the accounts
    are created, and with the vaults in place the instruction opens the market; the keys returned are the market's. *)
Theorem C59_listing : forall e, env_ok e -> forall c s rent payer k rq eq b a cm pm cv pv cl pl, history e s -> u64 cl -> u64 pl ->
  (exists n p, e_pda e n k = Some p /\ 0 <= n < 100) ->
  NoDup [k; rq; eq; b; a] -> (forall x, In x [k; rq; eq; b; a] -> fresh s x) ->
  (forall n, 0 < rent n /\ c_exempt c (rent n) n = true) -> payer_of s payer (rent 388 + rent 652 + rent 1048588 + rent 65548 + rent 65548) ->
  exists crs ci ks, c_list_market e rent k rq eq b a cm pm cv pv cl pl = Ok (crs, ci, ks) /\
    (usable_vault s (k_vault_signer ks) cv cm -> usable_vault s (k_vault_signer ks) pv pm -> is_mint s cm -> is_mint s pm ->
     (forall x, In x [cv; pv; cm; pm] -> c_exempt c (a_lamports (sget s x)) (a_len (sget s x)) = true) ->
     exists s1 s2 m, sys_creates s payer crs = Ok s1 /\ history e s1 /\ process_bytes e c s1 (ci_data ci) (as_given ci) = Ok s2 /\ dexd e s2 k = Some (DMarket m) /\
       ks = keys_of k m (k_vault_signer ks) /\ e_pda e (m_nonce m) k = Some (k_vault_signer ks) /\
       as_called k cm pm cv pv None None None b a rq eq cl pl (m_nonce m) 100 m /\ a_len (sget s2 rq) = 652).
Proof. exact listing_works. Qed.
Print Assumptions C59_listing.
(** Nothing but two mints, two vaults and somebody with 5000 lamports. *)
Definition l0 : store := [(15, ex_token 17 900 0); (16, ex_token 18 900 0); (17, ex_mint); (18, ex_mint); (100, mkAccount 0 5000 0 DZero)].
Example C59_listing_case : exists crs ci ks s1 s2 m, c_list_market ex_env (fun _ => 700) 10 11 12 13 14 17 18 15 16 10 1000 = Ok (crs, ci, ks) /\ sys_creates l0 100 crs = Ok s1 /\
  process_bytes ex_env ex_clock s1 (ci_data ci) (as_given ci) = Ok s2 /\ dexd ex_env s2 10 = Some (DMarket m) /\ ks = keys_of 10 m 900.
Proof.
  assert (H : history ex_env l0) by (apply reach_start, genesis_ok; vm_compute; reflexivity).
  destruct (C59_listing ex_env ex_env_ok ex_clock l0 (fun _ => 700) 100 10 11 12 13 14 17 18 15 16 10 1000 H) as (crs & ci & ks & E & W).
  - unfold u64. lia.
  - unfold u64. lia.
  - exists 0, 900. split; [reflexivity|lia].
  - repeat constructor; cbn [In]; lia.
  - intros x IX. cbn [In] in IX. destruct IX as [<-|[<-|[<-|[<-|[<-|[]]]]]]; (split; [discriminate|repeat split]).
  - intros; split; [lia|reflexivity].
  - split; [reflexivity|split; [reflexivity|vm_compute; discriminate]].
  - assert (KS : k_vault_signer ks = 900) by (vm_compute in E; injection E as <- <- <-; reflexivity). rewrite KS in W.
    destruct W as (s1 & s2 & m & W1 & _ & W2 & W3 & W4 & _).
    + eexists. split; [vm_compute; reflexivity|]. repeat split.
    + eexists. split; [vm_compute; reflexivity|]. repeat split.
    + repeat split.
    + repeat split.
    + reflexivity.
    + exists crs, ci, ks, s1, s2, m. auto.
Qed.
(** An account on it. *)
Theorem C59_new_account : forall e, env_ok e -> forall c s rent payer k m A L p w x, history e s -> seen e s k m A L -> ~ disabled m -> ~ permissioned m -> fresh s x ->
  (forall n, 0 < rent n /\ c_exempt c (rent n) n = true) -> payer_of s payer (rent 3228) ->
  exists s1, sys_create s payer (fst (c_init_oo e rent (keys_of k m p) w x)) = Ok s1 /\ history e s1 /\ works e c s1 (snd (c_init_oo e rent (keys_of k m p) w x)).
Proof. exact init_oo_listed. Qed.
Print Assumptions C59_new_account.
Example C59_new_account_case : fresh q3 2000 /\ payer_of q3 100 700 /\ ~ disabled q3_m /\ ~ permissioned q3_m /\
  exists s1, sys_create q3 100 (fst (c_init_oo ex_env (fun _ => 700) (keys_of 10 q3_m 900) 100 2000)) = Ok s1 /\ history ex_env s1 /\ works ex_env ex_clock s1 (snd (c_init_oo ex_env (fun _ => 700) (keys_of 10 q3_m 900) 100 2000)).
Proof.
  assert (F : fresh q3 2000) by (split; [discriminate|repeat split]). assert (PO : payer_of q3 100 700) by (split; [reflexivity|split; [reflexivity|vm_compute; discriminate]]). assert (ND : ~ disabled q3_m) by (intros X; discriminate X). assert (NP : ~ permissioned q3_m) by (intros X; discriminate X).
  split; [exact F|]. split; [exact PO|]. split; [exact ND|]. split; [exact NP|]. apply (C59_new_account ex_env ex_env_ok ex_clock q3 (fun _ => 700) 100 10 q3_m q3_A q3_L 900 100 2000 q3_h q3_seen ND NP F); [intros; split; [lia|reflexivity]|exact PO].
Qed.
(** The instructions it trades with do what those of the client library do, whose properties are C55. *)
Theorem C59_trades_like_the_client : forall e c s prog ks oo wallet payer sd price qty pc st ot cid limit ts sgn cw pw,
  let run ci := process_bytes e c s (ci_data ci) (as_given ci) in
  run (c_place prog ks oo wallet payer (mkOrderIx sd price qty pc st ot cid limit ts)) =
    run (b_new_order (k_market ks) oo (k_req_q ks) (k_event_q ks) (k_bids ks) (k_asks ks) wallet payer (k_coin_vault ks) (k_pc_vault ks) spl_id rent_id None prog sd price qty ot cid st limit pc ts) /\
  run (c_settle prog ks payer sgn oo cw pw) =
    run (b_settle_funds prog (k_market ks) spl_id oo (match sgn with Some x => x | None => payer end) (k_coin_vault ks) cw (k_pc_vault ks) pw None (k_vault_signer ks)) /\
  run (c_match prog ks cw pw) = Ok s.
Proof. exact trades_like_client. Qed.
Print Assumptions C59_trades_like_the_client.
