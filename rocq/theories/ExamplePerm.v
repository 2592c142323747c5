(** A concrete history with the example program: it opens the accounts of market 30, prunes and consumes on it. *)
From Verif Require Import Base BaseProofs Fees ListSum Codec Critbit CritbitSlab Market Slots Matching MatchSteps Ledger MatchSpec Core CoreNew Instr InstrProofs Store Process StoreProofs World WorldInv WorldSpec WorldFacts WorldMain WorldExample Proxy ProxySpec ProxyProofs ProxyMain ProxyMore ExampleProxy Client Permissioned PermSpec PermProofs PermMain.

Definition ex_prune (k : Z) : option Z := if small k then Some (2199023255552 + k) else None.
Lemma ex_prune_at k p : ex_prune k = Some p -> 0 <= k < 1000 /\ p = 2199023255552 + k.
Proof. unfold ex_prune, small. intros E. match type of E with context [if ?c then _ else _] => destruct c eqn:C end; [|discriminate]. apply some_eq in E. lia. Qed.
Lemma ex_prune_ok : prune_ok ex_env ex_px ex_prune.
Proof.
  constructor.
  - intros k k' p H H'. apply ex_prune_at in H, H'. lia.
  - intros k p k' u H A. apply ex_prune_at in H. apply ex_open in A. destruct A as (b & H1 & H2 & H3 & H4). lia.
  - intros k p k' b H E. apply ex_prune_at in H. apply ex_init in E. lia.
  - intros k p H (n & k' & E). apply ex_prune_at in H. cbn [e_pda ex_env] in E. destruct (k' =? 10); [apply some_eq in E; lia|]. destruct (k' =? 30); [apply some_eq in E; lia|discriminate].
Qed.
Lemma outside_ok ms : sealed_b ms = true -> outside ex_px ex_prune ms.
Proof.
  intros B. split; [apply sealed_ok; exact B|]. unfold sealed_b in B. rewrite forallb_forall in B. assert (X : forall w, signed_by ms w -> w < 1073741824).
  { intros w (a & IA & <- & S). specialize (B a IA). rewrite S in B. cbn [negb orb] in B. lia. }
  split; [intros S; apply X in S; apply Z.ltb_lt in S; vm_compute in S; discriminate|]. intros p S k E. apply X in S. apply ex_prune_at in E. lia.
Qed.
Definition h_entry (s : store) (ms : list meta) (data : bytes) : res store := entry ex_env ex_px ex_prune ex_clock s ms data.
(** Both kinds of history at once. *)
Definition fine (s : store) : Prop := hosted ex_env ex_px ex_prune s /\ history ex_env s /\ no_overflow ex_env s /\ sized s.
Definition fine_b (s : store) : bool := guard_b s && sized_b s.
Lemma h_step s ms data s' : fine s -> legal_b ms && sealed_b ms && bytes_b data && fine_b s' = true -> h_entry s ms data = Ok s' -> fine s'.
Proof.
  intros (HO & HI & NO & SZ) B H. apply andb_prop in B. destruct B as [B B4]. apply andb_prop in B. destruct B as [B B3]. apply andb_prop in B. destruct B as [B1 B2]. apply andb_prop in B4. destruct B4 as [B4 B5].
  split; [eapply hosted_entry; [exact HO|apply legal_ok; exact B1|apply outside_ok; exact B2|apply bytes_ok; exact B3|exact H]|].
  split; [eapply (entry_history ex_env ex_env_ok ex_px ex_px_ok ex_prune ex_prune_ok); [apply legal_ok; exact B1|apply outside_ok; exact B2|apply bytes_ok; exact B3|exact H|assumption..]|].
  split; [apply guard_ok; exact B4|apply sized_ok; exact B5].
Qed.
Definition h0 : store := p0 ++ [(160, ex_token 18 referral_id 0)].
Definition h_pr : Z := Eval vm_compute in match ex_prune 30 with Some a => a | None => 0 end.
Definition ms_h1 : list meta := map k_ [30; 31; 32; 33; 34; 35; 36; 17; 18; 0; p_auth; h_pr; h_pr].
Definition h1 : store := Eval vm_compute in transact ex_env ex_clock h0 (pack ix8) ms_h1.
(** User 140 shows the token, opens an account and offers 3 lots at 70. *)
Definition ms_h2 : list meta := map k_ [7; rent_id; 7; 0; p_oo] ++ [s_ 140] ++ map k_ [30; 0; p_auth].
Definition h2 : store := Eval vm_compute in took (h_entry h1 ms_h2 (data_open 255 254)) h1.
Definition ms_h3 : list meta := map k_ [7; rent_id; 30; p_oo; 31; 32; 33; 34; 142] ++ [s_ 140] ++ map k_ [35; 36; spl_id; 0].
Definition h3 : store := Eval vm_compute in took (h_entry h2 ms_h3 data_p3) h2.
(** A stranger, showing some other account, has the order pruned and the event consumed. *)
Definition ms_h4 : list meta := map k_ [7; 999; 30; 33; 34; h_pr; p_oo; 140; 32].
Definition h4 : store := Eval vm_compute in took (h_entry h3 ms_h4 data_prune) h3.
Definition ms_h5 : list meta := map k_ [7; 999; p_oo; 30; 32; h_pr].
Definition h5 : store := Eval vm_compute in took (h_entry h4 ms_h5 data_p5) h4.
(** The user settles, which names the program's referrer, and closes the account. *)
Definition ms_h6 (r : Z) : list meta := map k_ [7; rent_id; 30; p_oo] ++ [s_ 140] ++ map k_ [35; 36; 142; 143; 901; spl_id; r].
Definition h6 : store := Eval vm_compute in took (h_entry h5 (ms_h6 160) data_p6) h5.
Definition ms_h7 : list meta := map k_ [7; rent_id; p_oo] ++ [s_ 140] ++ map k_ [100; 30].
Definition h7 : store := Eval vm_compute in took (h_entry h6 ms_h7 data_p7) h6.
Lemma h0_f : fine h0.
Proof.
  split; [apply hosted_start, genesis_ok; vm_compute; reflexivity|]. split; [apply reach_start, genesis_ok; vm_compute; reflexivity|]. split; [apply guard_ok; vm_compute; reflexivity|apply sized_ok; vm_compute; reflexivity].
Qed.
Lemma h1_f : fine h1.
Proof.
  destruct h0_f as (A & B & C & F). replace h1 with (transact ex_env ex_clock h0 (pack ix8) ms_h1) by (vm_compute; reflexivity).
  split; [apply hosted_direct; [exact A|apply legal_ok; reflexivity|apply outside_ok; reflexivity]|]. split; [apply reach_tx; [exact B|exact C|exact F|apply pack_bytes|apply legal_ok; reflexivity]|].
  split; [apply guard_ok; vm_compute; reflexivity|apply sized_ok; vm_compute; reflexivity].
Qed.
Ltac hnext H ms d := eapply (h_step _ ms d); [exact H|vm_compute; reflexivity|vm_compute; reflexivity].
Lemma h2_f : fine h2. Proof. hnext h1_f ms_h2 (data_open 255 254). Qed.
Lemma h3_f : fine h3. Proof. hnext h2_f ms_h3 data_p3. Qed.
Lemma h4_f : fine h4. Proof. hnext h3_f ms_h4 data_prune. Qed.
Lemma h5_f : fine h5. Proof. hnext h4_f ms_h5 data_p5. Qed.
Lemma h6_f : fine h6. Proof. hnext h5_f (ms_h6 160) data_p6. Qed.
Lemma h7_f : fine h7. Proof. hnext h6_f ms_h7 data_p7. Qed.
Definition h3_look := Eval vm_compute in of_look h3 30.
Definition h3_m : market := Eval vm_compute in fst (fst h3_look).
Definition h3_oo : open_orders := Eval vm_compute in snd (nth 0 (snd h3_look) (0, oo_zero)).
Lemma h3_set_up : dexd ex_env h3 30 = Some (DMarket h3_m) /\ set_up ex_px ex_prune 30 h3_m /\ in_use ex_env h3 30 p_oo h3_oo /\ address_of ex_px 30 140 p_oo.
Proof.
  split; [vm_compute; reflexivity|]. split; [split; [split; [vm_compute; reflexivity|exists 254; vm_compute; reflexivity]|split; [split; vm_compute; reflexivity|split; vm_compute; reflexivity]]|]. split; [repeat split; vm_compute; reflexivity|]. exists 255. vm_compute. reflexivity.
Qed.
