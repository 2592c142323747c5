(** C79.  The rights of the authorities and of newcomers can always be used; but what a market has earned and not paid
    out when it is disabled can never be collected.  (That disabling and sweeping need the signature is C33; what sweeping
    does is C33_sweep; that pruning is possible is C45.) *)
From Verif Require Import Base Fees ListSum Codec Critbit CritbitSlab Market Matching Slots MatchSteps Ledger MatchSpec Core Instr InstrProofs Store Process StoreProofs World WorldInv WorldSpec WorldFacts WorldMain LifeSpec LifeProofs UseProofs WorldExample ExampleAuth ExampleAbsent ExampleIncome Properties_Strand.

(** The sweeper can collect the fees into any open token account of the quote currency with room for them. *)
Theorem C79_sweeping_possible : forall e, env_ok e -> forall s k m c dst p, history e s -> dexd e s k = Some (DMarket m) -> usable m -> ~ disabled m -> e_pda e (m_nonce m) k = Some p ->
  wallet s dst (m_pc_mint m) (m_pc_fees m) -> thawed s (m_pc_vault m) ->
  exists s', process e c s ISweepFees (map (fun y => mkMeta y false) [k; m_pc_vault m] ++ mkMeta fee_sweeper true :: map (fun y => mkMeta y false) [dst; p; spl_id]) = Ok s'.
Proof. exact sweep_works. Qed.
Print Assumptions C79_sweeping_possible.
(** The market can be disabled whatever its state. *)
Theorem C79_disabling_possible : forall e, env_ok e -> forall s k m c, anytime e s -> dexd e s k = Some (DMarket m) -> ~ disabled m ->
  exists s', process e c s IDisableMarket [mkMeta k false; mkMeta disable_authority true] = Ok s'.
Proof. exact disable_works. Qed.
Print Assumptions C79_disabling_possible.
(** Anybody with an empty account of the right size that pays rent can open it; a permissioned market's authority must sign too. *)
Theorem C79_opening_possible : forall e, env_ok e -> forall s k m c x w rent, anytime e s -> dexd e s k = Some (DMarket m) -> ~ disabled m ->
  dexd e s x = Some DZero -> a_len (sget s x) = 3228 -> c_exempt c (a_lamports (sget s x)) 3228 = true ->
  exists s' oo, process e c s IInitOO (mkMeta x false :: mkMeta w true :: mkMeta k false :: mkMeta rent false :: (if Z.testbit (m_flags m) 9 then [mkMeta (m_oo_auth m) true] else [])) = Ok s' /\
    dexd e s' x = Some (DOO oo) /\ blank_for k w oo.
Proof. exact open_works. Qed.
Print Assumptions C79_opening_possible.
(** Whatever happens after a market was disabled, its fees are still in the vault, beside everything owed to others, and
    nobody can collect them. *)
Theorem C79_disabled_fees_are_stuck : forall e, env_ok e -> forall k s E s' m A L m' A' L', history e s -> stretch e k s E s' -> seen e s k m A L -> usable m -> disabled m -> seen e s' k m' A' L' ->
  m_pc_fees m <= m_pc_fees m' /\ m_pc_vault m' = m_pc_vault m /\ holds s' (m_pc_vault m) (m_pc_deposits m' + m_rebates m' + m_pc_fees m) /\
  forall c ms s2, key_at ms 0 = Some k -> process e c s' ISweepFees ms <> Ok s2.
Proof. exact fees_stuck. Qed.
Print Assumptions C79_disabled_fees_are_stuck.

(** Fees of 84 can be swept to account 143; market 10 can be disabled; account 131 can be opened on the permissioned market 30. *)
Example C79_case : (exists t, token_at in7 143 = Some t) /\ history ex_env in7 /\ dexd ex_env in7 10 = Some (DMarket in7_m) /\ usable in7_m /\ ~ disabled in7_m /\ e_pda ex_env (m_nonce in7_m) 10 = Some 900 /\
  wallet in7 143 (m_pc_mint in7_m) (m_pc_fees in7_m) /\ thawed in7 (m_pc_vault in7_m) /\ 0 < m_pc_fees in7_m /\
  dexd ex_env w8 131 = Some DZero /\ a_len (sget w8 131) = 3228 /\ c_exempt ex_clock (a_lamports (sget w8 131)) 3228 = true /\ (exists m, dexd ex_env w8 30 = Some (DMarket m) /\ permissioned m /\ ~ disabled m).
Proof.
  split; [eexists; vm_compute; reflexivity|]. split; [next in6_h in6 (pack in_take) ms_in_take|]. split; [vm_compute; reflexivity|]. split; [unfold usable; vm_compute; repeat split; discriminate|]. split; [unfold disabled; vm_compute; discriminate|].
  split; [vm_compute; reflexivity|]. split; [eexists; split; [vm_compute; reflexivity|]; vm_compute; repeat split; reflexivity|]. split; [eexists; split; vm_compute; reflexivity|].
  split; [vm_compute; reflexivity|]. split; [vm_compute; reflexivity|]. split; [vm_compute; reflexivity|]. split; [vm_compute; reflexivity|].
  eexists. split; [vm_compute; reflexivity|]. split; [vm_compute; reflexivity|unfold disabled; vm_compute; discriminate].
Qed.
(** Market 10 is disabled with fees in the vault; Bob cancels their bid; the fees stay. *)
Definition d2_m : market := Eval vm_compute in fst (fst (of_look d2 10)).
Definition d2_A : astate := Eval vm_compute in snd (fst (of_look d2 10)).
Definition d2_L : list (Z * open_orders) := Eval vm_compute in snd (of_look d2 10).
Lemma d2_seen : seen ex_env d2 10 d2_m d2_A d2_L.
Proof. apply look_seen; vm_compute; reflexivity. Qed.
Definition d2_E : list event_view := Eval vm_compute in skipn (length (a_evs d1_A)) (a_evs d2_A).
Example C79_stuck_case : history ex_env d1 /\ stretch ex_env 10 d1 ([] ++ d2_E) d2 /\ seen ex_env d1 10 d1_m d1_A d1_L /\ usable d1_m /\ disabled d1_m /\ seen ex_env d2 10 d2_m d2_A d2_L /\
  0 < m_pc_fees d1_m /\ m_pc_fees d2_m = m_pc_fees d1_m /\ d2_E <> [].
Proof.
  split; [exact d1_h|]. split.
  { apply (stretch_tx ex_env 10 d1 [] d1 ex_clock (pack (ICancelV2 Bid (l_key d1_bid))) ms_cancel d2_E);
    [apply stretch_now|apply guard_ok; vm_compute; reflexivity|apply sized_ok; vm_compute; reflexivity|apply bytes_ok; vm_compute; reflexivity|apply legal_ok; vm_compute; reflexivity|].
    do 6 eexists. exists [], (a_evs d1_A). split; [exact d1_seen|]. split; [exact d2_seen|]. repeat split; auto. }
  split; [exact d1_seen|]. split; [exact d1_usable|]. split; [vm_compute; reflexivity|]. split; [exact d2_seen|]. split; [vm_compute; reflexivity|]. split; [vm_compute; reflexivity|discriminate].
Qed.
