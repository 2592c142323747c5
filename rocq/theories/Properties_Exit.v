(** Nobody can be locked in (C54): from every state of every history the owner of an open-orders account can,
    with nobody else's signature except the crank authority's where the market has one, take their orders off the book, withdraw
    everything the account is worth and close it.  [left_market] (ExitSpec.v) is the final state in full. *)
From Verif Require Import Base Fees ListSum Codec Critbit CritbitSlab Market Slots Matching MatchSteps Ledger MatchSpec Core Instr Store Process StoreProofs World WorldInv WorldSpec ExitSpec WorldMain WorldExit WorldExample.

(** C54.  One transaction per unconsumed event, two per own order, one to settle and one to close.  Not asked
    for: that the market is enabled, that anyone trades, that the account is idle. *)
Theorem C54_everyone_can_leave_with_everything : forall e, env_ok e -> forall c s k m A L, history e s -> no_overflow e s -> sized s -> seen e s k m A L -> usable m ->
  (needs_crank_authority m -> ~ is_pda e (m_crank_auth m)) ->
  forall x oo cw pw dest, In (x, oo) L ->
  (let due := coin_due x oo A + pc_due x oo A + rebates_due x oo A in wallet s cw (m_coin_mint m) due /\ wallet s pw (m_pc_mint m) due) ->
  thawed s (m_coin_vault m) -> thawed s (m_pc_vault m) -> dest <> x -> a_lamports (sget s dest) + a_lamports (sget s x) < B64 ->
  exists s', run e c (leaver m (oo_owner oo)) (length (a_evs A) + 2 * own_count x A + 2) s s' /\ history e s' /\ left_market e s s' k m A L x oo cw pw dest.
Proof. exact (fun e EO c s k m A L H G Z SN P CA x oo cw pw dest => exit_market e EO c s k m A L x oo cw pw dest (mkGood e s H G Z) SN P CA). Qed.
Print Assumptions C54_everyone_can_leave_with_everything.

(** ** The hypotheses are met *)
(** Alice has sold 4 lots and the fill is not consumed; another 2 lots still rest.  They leave with 20 coins and all quote due. *)
Example C54_case : exists e s k m A L x oo, env_ok e /\ history e s /\ no_overflow e s /\ sized s /\ seen e s k m A L /\ usable m /\ ~ needs_crank_authority m /\ In (x, oo) L /\
  a_evs A <> [] /\ own_count x A = 1%nat /\ coin_due x oo A = 20 /\ pc_due x oo A = 200000 /\ oo_pc_free oo = 0 /\
  (let due := coin_due x oo A + pc_due x oo A + rebates_due x oo A in wallet s 102 (m_coin_mint m) due /\ wallet s 103 (m_pc_mint m) due) /\
  thawed s (m_coin_vault m) /\ thawed s (m_pc_vault m) /\ 100 <> x /\ a_lamports (sget s 100) + a_lamports (sget s x) < B64.
Proof.
  exists ex_env, w4, 10, w4_m, w4_A, w4_L, 101, (snd (nth 0 w4_L (0, oo_zero))).
  split; [exact ex_env_ok|]. split; [exact w4_h|]. split; [apply guard_ok; vm_compute; reflexivity|]. split; [apply sized_ok; vm_compute; reflexivity|]. split; [exact w4_seen|]. split; [exact w4_usable|].
  split; [intros (_ & C); vm_compute in C; discriminate C|]. split; [vm_compute; auto|]. split; [discriminate|]. split; [vm_compute; reflexivity|]. split; [vm_compute; reflexivity|]. split; [vm_compute; reflexivity|]. split; [vm_compute; reflexivity|].
  split. { cbv zeta. repeat split; (eexists; split; [vm_compute; reflexivity|vm_compute; repeat split; reflexivity]). }
  split; [eexists; split; vm_compute; reflexivity|]. split; [eexists; split; vm_compute; reflexivity|]. split; [discriminate|vm_compute; reflexivity].
Qed.
(** On the permissioned market the crank authority (302) consumes the two final events. *)
Example C54_case_permissioned : exists e s k m A L x oo, env_ok e /\ history e s /\ no_overflow e s /\ sized s /\ seen e s k m A L /\ usable m /\
  needs_crank_authority m /\ ~ is_pda e (m_crank_auth m) /\ In (x, oo) L /\ length (a_evs A) = 2%nat /\ coin_due x oo A = 50 /\
  (let due := coin_due x oo A + pc_due x oo A + rebates_due x oo A in wallet s 142 (m_coin_mint m) due /\ wallet s 143 (m_pc_mint m) due) /\
  thawed s (m_coin_vault m) /\ thawed s (m_pc_vault m) /\ 140 <> x /\ a_lamports (sget s 140) + a_lamports (sget s x) < B64.
Proof.
  exists ex_env, w12, 30, w12_m, w12_A, w12_L, 131, (snd (nth 0 w12_L (0, oo_zero))).
  split; [exact ex_env_ok|]. split; [exact w12_h|]. split; [apply guard_ok; vm_compute; reflexivity|]. split; [apply sized_ok; vm_compute; reflexivity|]. split; [exact w12_seen|]. split; [exact w12_usable|].
  split; [split; vm_compute; reflexivity|]. split. { intros (n & k & E). unfold ex_env in E. cbn [e_pda] in E. revert E. change (m_crank_auth w12_m) with 302. repeat match goal with |- context [if ?b then _ else _] => destruct b end; discriminate. }
  split; [vm_compute; auto|]. split; [reflexivity|]. split; [vm_compute; reflexivity|].
  split. { cbv zeta. repeat split; (eexists; split; [vm_compute; reflexivity|vm_compute; repeat split; reflexivity]). }
  split; [eexists; split; vm_compute; reflexivity|]. split; [eexists; split; vm_compute; reflexivity|]. split; [discriminate|vm_compute; reflexivity].
Qed.
