(** C67: errors say what went wrong.  [order_error] and the other tables (ErrorSpec.v) say what each error means. *)
From Verif Require Import Base Fees ListSum Queue Codec Critbit Market Matching Slots Core CoreNew MatchSteps Ledger MatchSpec Instr Store Process StoreProofs World WorldInv WorldSpec WorldMain WorldExample WorldCids OpenSpec PlaceSpec TakeSpec WorldPlace ErrorSpec ErrorProofs.

(** With the right accounts and amounts that fit in 64 bits, an order is accepted or its error is true. *)
Theorem C67_an_order_is_accepted_or_the_reason_is_true : forall e, env_ok e -> forall s k m A L, history e s -> seen e s k m A L -> usable m ->
  forall c ix x w oo payer t rent disc, account_for e s c k m L x w oo -> ~ disabled m -> order_ix_ok ix ->
  token_at s payer = Some t -> a_len (sget s payer) = 165 -> t_state t = 1 -> t_mint t = pays_in m (oi_side ix) -> payer <> pays_into m (oi_side ix) ->
  discount_ok s w disc -> thawed s (m_coin_vault m) -> thawed s (m_pc_vault m) ->
  let most := Z.min (to_pay ix (m_coin_lot m) oo) (t_amount t) in
  oo_coin_total oo + m_coin_deposits m + (match oi_side ix with Ask => most | Bid => 0 end) < B64 ->
  oo_pc_total oo + m_pc_deposits m + (match oi_side ix with Bid => most | Ask => 0 end) < B64 ->
  let r := process e c s (INewOrderV3 ix)
    (mkMeta k false :: mkMeta x false :: mkMeta (m_req_q m) false :: mkMeta (m_event_q m) false :: mkMeta (m_bids m) false :: mkMeta (m_asks m) false ::
     mkMeta payer false :: mkMeta w true :: map (fun y => mkMeta y false) ([m_coin_vault m; m_pc_vault m; spl_id; rent] ++ disc)) in
  (exists s', r = Ok s') \/ (exists er, r = Err er /\ order_error e s k m A c ix x w oo t (nth_error disc 0) er).
Proof. exact (fun e EO s k m A L H => order_judged e EO s k m A L (reachable_inv e EO s H)). Qed.
Print Assumptions C67_an_order_is_accepted_or_the_reason_is_true.
(** Whatever accounts are listed, an error other than those about the accounts is true. *)
Theorem C67_a_refused_order_says_why : forall e, env_ok e -> forall s k m A L, history e s -> seen e s k m A L -> usable m ->
  forall c ix ms er, order_ix_ok ix -> key_at ms 0 = Some k -> process e c s (INewOrderV3 ix) ms = Err er ->
  about_accounts er \/ exists x w oo payer t, key_at ms 1 = Some x /\ key_at ms 6 = Some payer /\ signs ms 7 w /\
    account_for e s c k m L x w oo /\ token_at s payer = Some t /\ order_error e s k m A c ix x w oo t (key_at ms 12) er.
Proof. exact (fun e EO s k m A L H => order_refused e EO s k m A L (reachable_inv e EO s H)). Qed.
Print Assumptions C67_a_refused_order_says_why.

(** Cancels. *)
Theorem C67_a_cancel_works_or_the_reason_is_true : forall e, env_ok e -> forall s k m A L, history e s -> seen e s k m A L -> usable m ->
  forall c x oo rest, In (x, oo) L ->
  let ms := mkMeta k false :: mkMeta (m_bids m) false :: mkMeta (m_asks m) false :: mkMeta x false :: mkMeta (oo_owner oo) true :: mkMeta (m_event_q m) false :: rest in
  (forall sd id, let r := process e c s (ICancelV2 sd id) ms in (exists s', r = Ok s') \/ (exists er, r = Err er /\ cancel_error e s m A x sd id er)) /\
  (forall cid, cid <> 0 -> let r := process e c s (ICancelByCid cid) ms in (exists s', r = Ok s') \/ (exists er, r = Err er /\ cancel_cid_error e s m A x oo cid er)) /\
  (forall cids, let r := process e c s (ICancelByCids cids) ms in (exists s', r = Ok s') \/ (exists er, r = Err er /\ cancel_cids_error e s m A x cids er)).
Proof. exact (fun e EO s k m A L H => cancels_decided e s k m A L (reachable_inv e EO s H)). Qed.
Print Assumptions C67_a_cancel_works_or_the_reason_is_true.
Theorem C67_a_refused_cancel_says_why : forall e, env_ok e -> forall s k m A L, history e s -> seen e s k m A L -> usable m ->
  forall c ms er, key_at ms 0 = Some k ->
  let why cause := about_accounts er \/ exists x oo, key_at ms 3 = Some x /\ In (x, oo) L /\ signs ms 4 (oo_owner oo) /\ cause x oo in
  (forall sd id, process e c s (ICancelV2 sd id) ms = Err er -> why (fun x _ => cancel_error e s m A x sd id er)) /\
  (forall cid, process e c s (ICancelByCid cid) ms = Err er -> why (fun x oo => cancel_cid_error e s m A x oo cid er)) /\
  (forall cids, process e c s (ICancelByCids cids) ms = Err er -> why (fun x _ => cancel_cids_error e s m A x cids er)).
Proof. exact (fun e EO s k m A L H => cancels_refused e s k m A L (reachable_inv e EO s H)). Qed.
Print Assumptions C67_a_refused_cancel_says_why.
(** Pruning and closing. *)
Theorem C67_a_prune_works_or_the_queue_is_full : forall e, env_ok e -> forall s k m A L, history e s -> seen e s k m A L -> usable m ->
  forall c limit x oo, has_flag (m_flags m) AF_Permissioned = true -> ~ disabled m -> In (x, oo) L -> 0 <= limit ->
  let r := process e c s (IPrune limit) [mkMeta k false; mkMeta (m_bids m) false; mkMeta (m_asks m) false; mkMeta (m_prune_auth m) true; mkMeta x false; mkMeta (oo_owner oo) false; mkMeta (m_event_q m) false] in
  (exists s', r = Ok s') \/ (exists er, r = Err er /\ prune_error e s m A x limit er).
Proof. exact (fun e EO s k m A L H => prune_decided e s k m A L (reachable_inv e EO s H)). Qed.
Print Assumptions C67_a_prune_works_or_the_queue_is_full.
Theorem C67_an_account_closes_or_is_in_use : forall e, env_ok e -> forall s k m A L, history e s -> seen e s k m A L -> usable m ->
  forall c x oo dest, In (x, oo) L -> dest <> x -> let r := process e c s ICloseOO [mkMeta x false; mkMeta (oo_owner oo) true; mkMeta dest false; mkMeta k false] in
  a_lamports (sget s x) + a_lamports (sget s dest) < B64 -> 0 <= a_lamports (sget s x) -> 0 <= a_lamports (sget s dest) ->
  (exists s', r = Ok s') \/ (exists er, r = Err er /\ close_error oo er).
Proof. exact (fun e EO s k m A L H => close_decided e s k m A L (reachable_inv e EO s H)). Qed.
Print Assumptions C67_an_account_closes_or_is_in_use.

(** After the first trade of the example (w5): every hypothesis holds, Alice and Bob meet five of the six reasons, and each cancel error occurs. *)
Definition says {A} (r : res A) (er : err) : Prop := r = Err er.
Definition bid5 (price pc max_ts : Z) : order_ix := mkOrderIx Bid price 3 pc AbortTransaction Limit 24 7 max_ts.
Definition alices (i : instr) (s : store) : res store := process ex_env ex_clock s i [k_ 10; k_ 13; k_ 14; k_ 101; s_ 100; k_ 12].
Example C67_case :
  history ex_env w5 /\ seen ex_env w5 10 w5_m w5_A w5_L /\ usable w5_m /\ ~ disabled w5_m /\ discount_ok w5 110 [] /\
  thawed w5 (m_coin_vault w5_m) /\ thawed w5 (m_pc_vault w5_m) /\
  (let ix := bid5 61 1000000 I64_MAX in exists oo t, account_for ex_env w5 ex_clock 10 w5_m w5_L 111 110 oo /\ order_ix_ok ix /\ token_at w5 113 = Some t /\
     a_len (sget w5 113) = 165 /\ t_state t = 1 /\ t_mint t = pays_in w5_m Bid /\ 113 <> pays_into w5_m Bid /\ 0 < to_pay ix (m_coin_lot w5_m) oo <= t_amount t /\
     oo_coin_total oo + m_coin_deposits w5_m + 0 < B64 /\ oo_pc_total oo + m_pc_deposits w5_m + to_pay ix (m_coin_lot w5_m) oo < B64) /\
  (let order ix := process ex_env ex_clock w5 (INewOrderV3 ix) in
     (exists s', order (bid5 61 1000000 I64_MAX) (ms_order 111 113 110) = Ok s') /\
     says (order (bid5 61 1000000 999) (ms_order 111 113 110)) EMaxTimestamp /\
     says (order (bid5 61 10000000000000 I64_MAX) (ms_order 111 113 110)) EInsufficientFunds /\
     says (order (bid5 61 1000000 I64_MAX) (ms_order 101 113 100)) EWouldSelfTrade /\
     says (order (bid5 61 1000000 I64_MAX) (ms_order 111 103 110)) ETransferFailed) /\
  says (alices (ICancelV2 Ask 77) w5) EOrderNotFound /\ says (alices (ICancelV2 Bid 1033017668127734890493) w5) EOrderNotYours /\
  says (alices (ICancelByCid 77) w5) EClientIdNotFound /\ says (alices (ICancelByCid 21) w4) EOrderNotFound /\
  says (process ex_env ex_clock w5 ICloseOO [k_ 101; s_ 100; k_ 100; k_ 10]) ETooManyOpenOrders.
Proof.
  split; [exact w5_h|]. split; [exact w5_seen|]. split; [exact w5_usable|]. split; [vm_compute; discriminate|]. split; [exact I || (vm_compute; auto)|].
  split; [eexists; vm_compute; split; reflexivity|]. split; [eexists; vm_compute; split; reflexivity|].
  split. { cbv zeta. exists (snd (nth 1 w5_L (0, oo_zero))). eexists. split; [left; split; [vm_compute; auto|vm_compute; reflexivity]|]. split; [constructor; cbn; unfold u64, I64_MAX; lia|].
    repeat (split; [vm_compute; reflexivity|]). split; [vm_compute; discriminate|]. split; [split; [vm_compute; reflexivity|vm_compute; discriminate]|]. split; vm_compute; reflexivity. }
  split. { cbv zeta. split; [apply succeeds_ok; vm_compute; reflexivity|]. unfold says. repeat split; vm_compute; reflexivity. }
  unfold says. repeat split; vm_compute; reflexivity.
Qed.
(** The event queue nearly full: Bob bids 64 times and Alice 63 times, each an immediate-or-cancel bid that meets nothing, and nobody
    consumes the 127 events.  Then a bid that trades is refused for want of room, and a post-only bid, which reports one event, is accepted. *)
Definition idle (oo payer w : Z) : bytes * list meta := (pack (INewOrderV3 (mkOrderIx Bid 1 1 2000 DecrementTake ImmediateOrCancel 9 10 I64_MAX)), ms_order oo payer w).
Definition idles : list (bytes * list meta) := repeat (idle 111 113 110) 64 ++ repeat (idle 101 103 100) 63.
Definition crowd (s : store) (l : list (bytes * list meta)) : store := fold_left (fun s x => transact ex_env ex_clock s (fst x) (snd x)) l s.
Fixpoint crowd_b (s : store) (l : list (bytes * list meta)) : bool :=
  match l with [] => true | x :: r => step_b s (fst x) (snd x) && crowd_b (transact ex_env ex_clock s (fst x) (snd x)) r end.
Lemma crowd_h l : forall s, history ex_env s -> crowd_b s l = true -> history ex_env (crowd s l).
Proof.
  induction l as [|x r IH]; intros s H B; [exact H|]. cbn [crowd_b] in B. apply andb_prop in B. destruct B as [B1 B2].
  apply IH; [apply step_ok; assumption|exact B2].
Qed.
Definition wf : store := Eval vm_compute in crowd w5 idles.
Lemma wf_h : history ex_env wf.
Proof. replace wf with (crowd w5 idles) by (vm_compute; reflexivity). apply crowd_h; [exact w5_h|vm_compute; reflexivity]. Qed.
Example C67_full_case : history ex_env wf /\
  (exists m A L, seen ex_env wf 10 m A L /\ usable m /\ zlen (a_evs A) = 127 /\ exists q, dexd ex_env wf (m_event_q m) = Some (DEventQ q) /\ zlen (q_buf q) = 128) /\
  (let order ix := process ex_env ex_clock wf (INewOrderV3 ix) (ms_order 111 113 110) in
   says (order (bid5 61 1000000 I64_MAX)) EEventQueueFull /\
   exists s', order (mkOrderIx Bid 2 1 2000 DecrementTake PostOnly 9 10 I64_MAX) = Ok s').
Proof.
  split; [exact wf_h|]. split.
  { exists (fst (fst (of_look wf 10))), (snd (fst (of_look wf 10))), (snd (of_look wf 10)).
    split; [apply look_seen; vm_compute; reflexivity|]. split; [unfold usable; vm_compute; repeat split; discriminate|]. split; [vm_compute; reflexivity|].
    eexists. split; vm_compute; reflexivity. }
  cbv zeta. split; [unfold says; vm_compute; reflexivity|apply succeeds_ok; vm_compute; reflexivity].
Qed.
