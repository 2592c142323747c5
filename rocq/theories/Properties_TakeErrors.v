(** C69: a SendTake works, or its error is true.  [take_error] (TakeErrorSpec.v) says what each error means. *)
From Verif Require Import Base Fees ListSum Queue Codec Critbit Market Matching Slots Core CoreNew MatchSteps Ledger MatchSpec Instr Store Process StoreProofs World WorldInv WorldSpec WorldMain WorldExample OpenSpec PlaceSpec TakeSpec WorldPlace ErrorSpec TakeErrorSpec TakeBlame TakeErrorProofs Properties_Errors.

(** With the right accounts it succeeds, or fails with one of four errors, and then the reason is true.  It does not abort. *)
Theorem C69_a_take_works_or_the_reason_is_true : forall e, env_ok e -> forall s k m A L, history e s -> seen e s k m A L -> usable m ->
  forall c ix cw pw w p disc tcw tpw, ~ disabled m ->
  0 < ti_price ix < B64 /\ 0 < ti_qty ix < B64 /\ 0 < ti_pc ix < B64 /\ 0 <= ti_limit ix < 65536 ->
  may_spend (ti_side ix) (ti_qty ix) (ti_pc ix) (m_coin_lot m) < B64 ->
  token_at s cw = Some tcw -> a_len (sget s cw) = 165 -> t_state tcw = 1 -> t_mint tcw = m_coin_mint m ->
  token_at s pw = Some tpw -> a_len (sget s pw) = 165 -> t_state tpw = 1 -> t_mint tpw = m_pc_mint m ->
  (forall v, In v [cw; pw] -> v <> m_coin_vault m /\ v <> m_pc_vault m) -> discount_ok s w disc ->
  e_pda e (m_nonce m) k = Some p -> thawed s (m_coin_vault m) -> thawed s (m_pc_vault m) ->
  let r := process e c s (ISendTake ix)
    (mkMeta k false :: mkMeta (m_req_q m) false :: mkMeta (m_event_q m) false :: mkMeta (m_bids m) false :: mkMeta (m_asks m) false ::
     mkMeta cw false :: mkMeta pw false :: mkMeta w true :: map (fun y => mkMeta y false) ([m_coin_vault m; m_pc_vault m; spl_id; p] ++ disc)) in
  (exists s', r = Ok s') \/ (exists er, r = Err er /\ take_error e s k m A ix w cw pw (nth_error disc 0) er).
Proof. exact (fun e EO s k m A L H => take_judged e EO s k m A L (reachable_inv e EO s H)). Qed.
Print Assumptions C69_a_take_works_or_the_reason_is_true.
(** Whatever accounts are listed, as long as the wallets are not the market's vaults. *)
Theorem C69_a_refused_take_says_why : forall e, env_ok e -> forall s k m A L, history e s -> seen e s k m A L -> usable m ->
  forall c ix ms er, 0 < ti_price ix < B64 /\ 0 < ti_qty ix < B64 /\ 0 < ti_pc ix < B64 /\ 0 <= ti_limit ix < 65536 ->
  may_spend (ti_side ix) (ti_qty ix) (ti_pc ix) (m_coin_lot m) < B64 -> key_at ms 0 = Some k ->
  (forall i v, i = 5%nat \/ i = 6%nat -> key_at ms i = Some v -> v <> m_coin_vault m /\ v <> m_pc_vault m) ->
  process e c s (ISendTake ix) ms = Err er ->
  about_accounts er \/ exists w cw pw, key_at ms 5 = Some cw /\ key_at ms 6 = Some pw /\ signs ms 7 w /\ take_error e s k m A ix w cw pw (key_at ms 12) er.
Proof. exact (fun e EO s k m A L H => take_refused e EO s k m A L (reachable_inv e EO s H)). Qed.
Print Assumptions C69_a_refused_take_says_why.

(** Bob after the first trade (w5), with Alice's two lots at 60 on the book: the hypotheses hold, and each outcome occurs; the
    queue is too full in [wf]. *)
Definition take5 (qty pc min : Z) : instr := ISendTake (mkTakeIx Bid 60 qty pc min 0 10).
Definition take_ms (cw pw w : Z) : list meta := map k_ [10; 11; 12; 13; 14; cw; pw] ++ [s_ w] ++ map k_ [15; 16; spl_id; 900].
Example C69_case :
  history ex_env w5 /\ seen ex_env w5 10 w5_m w5_A w5_L /\ usable w5_m /\ ~ disabled w5_m /\ may_spend Bid 2 1000000 (m_coin_lot w5_m) < B64 /\
  (exists tcw tpw, token_at w5 112 = Some tcw /\ a_len (sget w5 112) = 165 /\ t_state tcw = 1 /\ t_mint tcw = m_coin_mint w5_m /\
     token_at w5 113 = Some tpw /\ a_len (sget w5 113) = 165 /\ t_state tpw = 1 /\ t_mint tpw = m_pc_mint w5_m) /\
  (forall v, In v [112; 113] -> v <> m_coin_vault w5_m /\ v <> m_pc_vault w5_m) /\ discount_ok w5 110 [] /\
  e_pda ex_env (m_nonce w5_m) 10 = Some 900 /\ thawed w5 (m_coin_vault w5_m) /\ thawed w5 (m_pc_vault w5_m) /\
  (let take s i ms := process ex_env ex_clock s i ms in
     (exists s', take w5 (take5 2 1000000 2) (take_ms 112 113 110) = Ok s') /\
     says (take w5 (take5 2 1000000 3) (take_ms 112 113 110)) EMinAmountNotMet /\
     says (take w5 (take5 2 1000000 2) (take_ms 112 113 100)) ETransferFailed /\
     says (take w5 (take5 2 1000000 2) (take_ms 112 150 110)) EInsufficientFunds /\
     says (take wf (take5 2 1000000 2) (take_ms 112 113 110)) EEventQueueFull).
Proof.
  split; [exact w5_h|]. split; [exact w5_seen|]. split; [exact w5_usable|]. split; [vm_compute; discriminate|]. split; [vm_compute; reflexivity|].
  split; [eexists; eexists; repeat (split; [vm_compute; reflexivity|]); vm_compute; reflexivity|].
  split; [intros v [<-|[<-|[]]]; split; vm_compute; discriminate|]. split; [left; reflexivity|]. split; [vm_compute; reflexivity|].
  split; [eexists; vm_compute; split; reflexivity|]. split; [eexists; vm_compute; split; reflexivity|].
  cbv zeta. split; [apply succeeds_ok; vm_compute; reflexivity|]. unfold says. repeat split; vm_compute; reflexivity.
Qed.
