(** C70: a replace works, or its error is true.  [replace_error] (ReplaceErrorSpec.v) says what each error means. *)
From Verif Require Import Base Fees ListSum Queue Codec Critbit Market Matching Slots Core CoreNew MatchSteps Ledger MatchSpec Instr Store Process StoreProofs World WorldInv WorldSpec WorldMain WorldExample WorldRights ExampleAuth OpenSpec PlaceSpec TakeSpec WorldPlace ProxyAmounts ErrorSpec ReplaceErrorSpec ReplaceProofs Properties_Errors.

(** With the right accounts it succeeds, or the first step that does not says truly why.  It does not abort. *)
Theorem C70_a_replace_works_or_the_reason_is_true : forall e, env_ok e -> forall s k m A L, history e s -> no_overflow e s -> seen e s k m A L -> usable m ->
  forall c i sd ixs x oo payer t rent disc, replaces i ixs -> Forall (fun ix => order_ix_ok ix /\ oi_side ix = sd) ixs -> (length ixs <= 8)%nat ->
  let w := oo_owner oo in In (x, oo) L -> ~ is_pda e w -> ~ disabled m ->
  token_at s payer = Some t -> a_len (sget s payer) = 165 -> t_state t = 1 -> t_mint t = pays_in m sd -> payer <> pays_into m sd ->
  discount_ok s w disc -> thawed s (m_coin_vault m) -> thawed s (m_pc_vault m) -> amounts_fit m sd oo (t_amount t) (zlen ixs) ->
  let r := process e c s i
    (mkMeta k false :: mkMeta x false :: mkMeta (m_req_q m) false :: mkMeta (m_event_q m) false :: mkMeta (m_bids m) false :: mkMeta (m_asks m) false ::
     mkMeta payer false :: mkMeta w true :: map (fun y => mkMeta y false) ([m_coin_vault m; m_pc_vault m; spl_id; rent] ++ disc)) in
  (exists s', r = Ok s') \/ exists er, r = Err er /\ replace_error e s k m A L c ixs x w oo payer (nth_error disc 0) er.
Proof. exact (fun e EO s k m A L H => any_replace_judged e EO s k m A L (reachable_inv e EO s H) (anytime_amounts e EO s (history_anytime e s H))). Qed.
Print Assumptions C70_a_replace_works_or_the_reason_is_true.
(** Whatever accounts are listed. *)
Theorem C70_a_refused_replace_says_why : forall e, env_ok e -> forall s k m A L, history e s -> no_overflow e s -> seen e s k m A L -> usable m ->
  forall c i ixs ms er, replaces i ixs -> legal e ms -> Forall order_ix_ok ixs -> (length ixs <= 8)%nat -> process e c s i ms = Err er -> key_at ms 0 = Some k ->
  about_accounts er \/ exists x oo payer, key_at ms 1 = Some x /\ In (x, oo) L /\ signs ms 7 (oo_owner oo) /\ key_at ms 6 = Some payer /\
    replace_error e s k m A L c ixs x (oo_owner oo) oo payer (key_at ms 12) er.
Proof. exact (fun e EO s k m A L H => any_replace_refused e EO s k m A L (reachable_inv e EO s H)). Qed.
Print Assumptions C70_a_refused_replace_says_why.

(** Alice before the first trade (w3), two asks on the book: the hypotheses hold; two new asks for one old one are accepted, and a
    second ask that comes too late, or asks for more than there is, is the reason why all is refused. *)
Definition ask3 (price qty max_ts cid : Z) : order_ix := mkOrderIx Ask price qty 1 DecrementTake Limit cid 65535 max_ts.
Example C70_case :
  history ex_env w3 /\ no_overflow ex_env w3 /\ seen ex_env w3 10 w3_m w3_A w3_L /\ usable w3_m /\ ~ disabled w3_m /\ legal ex_env ms_replace /\
  (exists oo t, In (101, oo) w3_L /\ oo_owner oo = 100 /\ ~ is_pda ex_env 100 /\ token_at w3 102 = Some t /\ a_len (sget w3 102) = 165 /\ t_state t = 1 /\ t_mint t = pays_in w3_m Ask /\
     102 <> pays_into w3_m Ask /\ amounts_fit w3_m Ask oo (t_amount t) 2) /\
  discount_ok w3 100 [] /\ thawed w3 (m_coin_vault w3_m) /\ thawed w3 (m_pc_vault w3_m) /\
  (forall q ts, 0 < q < 1000000000 -> 0 <= ts <= I64_MAX -> Forall (fun ix => order_ix_ok ix /\ oi_side ix = Ask) [ask3 65 1 I64_MAX 22; ask3 66 q ts 26]) /\
  map l_cid (with_cid 101 [22; 26] (a_asks w3_A)) = [22] /\
  let r q ts := process ex_env ex_clock w3 (IReplaceMany [ask3 65 1 I64_MAX 22; ask3 66 q ts 26]) ms_replace in
  (exists s', r 1 I64_MAX = Ok s') /\ says (r 1 999) EMaxTimestamp /\ says (r 999999999 I64_MAX) EInsufficientFunds /\
  says (process ex_env ex_clock w3 (IReplaceOne (ask3 65 1 999 22)) ms_replace) EMaxTimestamp.
Proof.
  split; [exact w3_h|]. split; [apply guard_ok; vm_compute; reflexivity|]. split; [exact w3_seen|]. split; [exact w3_usable|]. split; [vm_compute; discriminate|]. split; [apply legal_ok; vm_compute; reflexivity|].
  split. { exists (snd (nth 0 w3_L (0, oo_zero))). eexists. split; [vm_compute; auto|]. split; [vm_compute; reflexivity|].
    split; [intros PD; apply (legal_ok ms_replace ltac:(vm_compute; reflexivity) (mkMeta 100 true)); [vm_compute; tauto|reflexivity|exact PD]|].
    repeat (split; [vm_compute; reflexivity|]). split; [vm_compute; discriminate|]. split; vm_compute; reflexivity. }
  split; [left; reflexivity|]. split; [eexists; vm_compute; split; reflexivity|]. split; [eexists; vm_compute; split; reflexivity|].
  split. { intros q ts HQ HT. constructor; [|constructor; [|constructor]]; (split; [constructor; cbn; unfold u64, I64_MAX in *; lia|reflexivity]). }
  split; [vm_compute; reflexivity|]. cbv zeta. split; [apply succeeds_ok; vm_compute; reflexivity|]. unfold says. repeat split; vm_compute; reflexivity.
Qed.
