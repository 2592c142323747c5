(** A concrete history under the vault guard of C24. *)
From Verif Require Import Base Fees ListSum Queue Codec Critbit CritbitSlab Market Slots MatchSteps Ledger MatchSpec Core Instr Store Process StoreProofs World WorldSpec WorldExample.

(** At most 10^15 units in any vault. *)
Definition ex_cap (_ : Z) : Z := 1000000000000000.
Definition modest_b (s : store) : bool := forallb (fun ka =>
  match dexd ex_env s (fst ka) with
  | Some (DMarket m) =>
      match token_at s (m_coin_vault m) with Some t => t_amount t <=? ex_cap 0 | None => true end &&
      match token_at s (m_pc_vault m) with Some t => t_amount t <=? ex_cap 0 | None => true end &&
      match dexd ex_env s (m_event_q m) with Some (DEventQ q) => ex_cap 0 * (1 + zlen (q_buf q)) <? B64 | _ => true end &&
      match dexd ex_env s (m_req_q m) with Some (DReqQ (_, n)) => n + 16 <? B64 | _ => true end
  | _ => true
  end) s.
Lemma modest_ok s : modest_b s = true -> modest ex_env ex_cap s.
Proof.
  unfold modest_b. rewrite forallb_forall. intros H k m E _. destruct (dexd_in _ _ _ E) as (I & _). specialize (H _ I). cbn [fst] in H. rewrite E in H. change (ex_cap k) with (ex_cap 0).
  apply andb_prop in H. destruct H as [H H4]. apply andb_prop in H. destruct H as [H H3]. apply andb_prop in H. destruct H as [H1 H2]. split; [|split].
  - intros v t [->| ->] T; [rewrite T in H1|rewrite T in H2]; apply Z.leb_le; assumption.
  - intros q Q. rewrite Q in H3. apply Z.ltb_lt. exact H3.
  - intros c n Q. rewrite Q in H4. apply Z.ltb_lt. exact H4.
Qed.
Definition mstep_b (s : store) (b : bytes) (ms : list meta) : bool := modest_b s && sized_b s && legal_b ms && bytes_b b.
Lemma mstep_ok s b ms : reachable ex_env (modest ex_env ex_cap) s -> mstep_b s b ms = true -> reachable ex_env (modest ex_env ex_cap) (transact ex_env ex_clock s b ms).
Proof.
  intros H B. unfold mstep_b in B. apply andb_prop in B. destruct B as [B B4]. apply andb_prop in B. destruct B as [B B3]. apply andb_prop in B. destruct B as [B1 B2].
  apply reach_tx; [assumption|apply modest_ok|apply sized_ok|apply bytes_ok|apply legal_ok]; assumption.
Qed.
Ltac mnext H s b ms := match goal with |- reachable _ _ ?w => replace w with (transact ex_env ex_clock s b ms) by (vm_compute; reflexivity) end;
  apply mstep_ok; [exact H|vm_compute; reflexivity].
Notation modestly := (reachable ex_env (modest ex_env ex_cap)).
Lemma w0_modestly : modestly w0.
Proof. apply reach_start, genesis_ok. vm_compute. reflexivity. Qed.
Lemma w1_modestly : modestly w1. Proof. mnext w0_modestly w0 (pack ix1) ms1. Qed.
Lemma w2_modestly : modestly w2. Proof. mnext w1_modestly w1 (pack ix2) (ms_order 101 102 100). Qed.
Lemma w3_modestly : modestly w3. Proof. mnext w2_modestly w2 (pack ix3) (ms_order 101 102 100). Qed.
Lemma w4_modestly : modestly w4. Proof. mnext w3_modestly w3 (pack ix4) (ms_order 111 113 110). Qed.
