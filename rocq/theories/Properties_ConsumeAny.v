(** C27: who processes the events makes no difference. *)
From Verif Require Import Base Fees ListSum Queue Codec Critbit CritbitSlab Market Slots Matching MatchSteps Ledger MatchSpec Core CoreNew Instr Store Process StoreProofs World WorldInv WorldSpec WorldMain WorldExample CrankAnySpec CrankAnyProofs.

(** Two series of consume transactions, sent by different people with different accounts and in different portions, that
    have left equally many events in the queue have left every account of the chain the same. *)
Theorem C27_who_processes_makes_no_difference : forall e, env_ok e -> forall s k m A L, history e s -> seen e s k m A L -> usable m ->
  forall s1 s2 m1 m2 A1 A2 L1 L2, cranks e k (m_event_q m) s s1 -> cranks e k (m_event_q m) s s2 ->
  seen e s1 k m1 A1 L1 -> seen e s2 k m2 A2 L2 -> length (a_evs A1) = length (a_evs A2) -> forall y, sget s1 y = sget s2 y.
Proof. exact (fun e EO s k m A L H SN P s1 s2 m1 m2 A1 A2 L1 L2 => cranks_agree e EO s k m A L s1 s2 m1 m2 A1 A2 L1 L2 H SN P). Qed.
Print Assumptions C27_who_processes_makes_no_difference.

(** Four events of two accounts: all at once, or account 101's first and then, one by one, those of account 111. *)
Definition only_of (x : Z) : list meta := map k_ [x; 10; m_event_q w4_m; 0; 0].
Definition in_parts : list (Z * list meta) := [(5, only_of 101); (1, only_of 111); (3, only_of 101); (1, only_of 111)].
Definition at_once : list (Z * list meta) := [(10, map k_ [101; 111; 10; m_event_q w4_m; 0; 0])].
Fixpoint sent (s : store) (txs : list (Z * list meta)) : res store :=
  match txs with [] => Ok s | (n, ms) :: r => s1 <- process ex_env ex_clock s (IConsumeEvents n) ms ;; sent s1 r end.
Definition left_in (r : res store) : Z := match r with Ok s => match dexd ex_env s (m_event_q w4_m) with Some (DEventQ q) => q_count q | _ => -1 end | _ => -1 end.
Example C27_case_parts : history ex_env w4 /\ seen ex_env w4 10 w4_m w4_A w4_L /\ usable w4_m /\ length (a_evs w4_A) = 4%nat /\
  left_in (sent w4 in_parts) = 0 /\ left_in (sent w4 at_once) = 0 /\ left_in (sent w4 (firstn 2 in_parts)) = 1 /\
  (exists s1, sent w4 in_parts = Ok s1 /\ cranks ex_env 10 (m_event_q w4_m) w4 s1) /\ (exists s2, sent w4 at_once = Ok s2 /\ cranks ex_env 10 (m_event_q w4_m) w4 s2).
Proof.
  split; [exact w4_h|]. split; [exact w4_seen|]. split; [exact w4_usable|]. split; [reflexivity|]. split; [vm_compute; reflexivity|]. split; [vm_compute; reflexivity|]. split; [vm_compute; reflexivity|].
  assert (G : forall txs s s', (forall n ms, In (n, ms) txs -> exists oos, crank (IConsumeEvents n) ms 10 (m_event_q w4_m) oos n) -> sent s txs = Ok s' -> cranks ex_env 10 (m_event_q w4_m) s s').
  { induction txs as [|[n ms] r IH]; intros s s' F H; cbn [sent] in H; [injection H as <-; constructor|]. destruct (process ex_env ex_clock s (IConsumeEvents n) ms) as [s1| |] eqn:PR; try discriminate. cbn [rbind] in H.
    destruct (F n ms (or_introl eq_refl)) as (oos & CR). econstructor; [exact CR|exact PR|]. apply IH; [|exact H]. intros n0 ms0 I0. apply F. right. exact I0. }
  split.
  - assert (X : exists s1, sent w4 in_parts = Ok s1) by (vm_compute; eexists; reflexivity). destruct X as (s1 & X). exists s1. split; [exact X|]. revert X. apply G.
    intros n ms I. unfold in_parts in I. cbn [In] in I. repeat (destruct I as [I|I]; [injection I as <- <-; eexists [_]; split; [discriminate|split; [lia|left; split; [reflexivity|exists 0, 0; reflexivity]]]|]). destruct I.
  - assert (X : exists s1, sent w4 at_once = Ok s1) by (vm_compute; eexists; reflexivity). destruct X as (s1 & X). exists s1. split; [exact X|]. revert X. apply G.
    intros n ms I. unfold at_once in I. cbn [In] in I. destruct I as [I|[]]. injection I as <- <-. exists [101; 111]. split; [discriminate|split; [lia|left; split; [reflexivity|exists 0, 0; reflexivity]]].
Qed.
