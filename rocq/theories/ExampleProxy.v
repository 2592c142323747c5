(** A concrete history through the proxy: market 30 is permissioned and opened by the proxy's address only. *)
From Verif Require Import Base BaseProofs Fees ListSum Codec Critbit CritbitSlab Market Slots Matching MatchSteps Ledger MatchSpec Core CoreNew Instr InstrProofs Store Process StoreProofs World WorldInv WorldSpec WorldFacts WorldMain WorldExample Proxy ProxySpec.

(** Addresses above 2^30 for users, above 2^40 for opening; 255 is the bump found by searching. *)
Definition small (k : Z) : bool := (0 <=? k) && (k <? 1000).
Definition byte (b : Z) : bool := (0 <=? b) && (b <? 256).
Definition ex_px : pxenv := mkPx
  (fun k u b => if small k && small u && byte b then Some (1073741824 + (k * 1000 + u) * 256 + b) else None)
  (fun k b => if small k && byte b then Some (1099511627776 + k * 256 + b) else None)
  (fun _ _ => 255) 3 (fun _ => 0) (fun _ => 0).
Lemma some_eq {A} (a b : A) : Some a = Some b -> a = b. Proof. congruence. Qed.
Lemma ex_open k u p : address_of ex_px k u p -> exists b, 0 <= k < 1000 /\ 0 <= u < 1000 /\ 0 <= b < 256 /\ p = 1073741824 + (k * 1000 + u) * 256 + b.
Proof.
  intros (b & E). exists b. cbn [px_open ex_px] in E. unfold small, byte in E. match type of E with context [if ?c then _ else _] => destruct c eqn:C end; [|discriminate]. apply some_eq in E. lia.
Qed.
Lemma ex_init k b p : px_init ex_px k b = Some p -> 0 <= k < 1000 /\ 0 <= b < 256 /\ p = 1099511627776 + k * 256 + b.
Proof. cbn [px_init ex_px]. unfold small, byte. intros E. match type of E with context [if ?c then _ else _] => destruct c eqn:C end; [|discriminate]. apply some_eq in E. lia. Qed.
Lemma ex_px_ok : px_ok ex_env ex_px.
Proof.
  assert (PD : forall p, is_pda ex_env p -> p = 900 \/ p = 901).
  { intros p (n & k & E). cbn [e_pda ex_env] in E. destruct (k =? 10); [left; congruence|]. destruct (k =? 30); [right; congruence|discriminate]. }
  constructor.
  - intros k u k' u' p H H'. apply ex_open in H, H'. destruct H as (b & H1 & H2 & H3 & H4), H' as (b' & H1' & H2' & H3' & H4'). lia.
  - intros k u k' b p H E. apply ex_open in H. apply ex_init in E. destruct H as (b' & H1 & H2 & H3 & H4). lia.
  - intros k u p H E. apply ex_open in H. apply PD in E. destruct H as (b' & H1 & H2 & H3 & H4). lia.
  - intros k b p E H. apply ex_init in E. apply PD in H. lia.
  - intros k u p H. apply ex_open in H. destruct H as (b' & H1 & H2 & H3 & H4). lia.
Qed.
Definition sealed_b (ms : list meta) : bool := forallb (fun a => negb (mk_signer a) || (mk a <? 1073741824)) ms.
Lemma sealed_ok ms : sealed_b ms = true -> sealed ex_px ms.
Proof.
  unfold sealed_b. rewrite forallb_forall. intros H p (a & I & <- & S). specialize (H a I). rewrite S in H. cbn [negb orb] in H. split.
  - intros k u A. apply ex_open in A. destruct A as (b' & H1 & H2 & H3 & H4). lia.
  - intros k b E. apply ex_init in E. lia.
Qed.

Definition p0 : store := w0 ++ [(140, mkAccount 0 5 0 DZero)].
Definition p_auth : Z := Eval vm_compute in match px_init ex_px 30 254 with Some a => a | None => 0 end.
Definition p_oo : Z := Eval vm_compute in match px_open ex_px 30 140 255 with Some a => a | None => 0 end.
Definition p_mws : list mw := [MLogger; MPda 0 0; MReferral 151].
Lemma p_guarded : guarded p_mws.
Proof. exists [MLogger], 0, 0, [MReferral 151]. split; [reflexivity|]. split; repeat constructor. Qed.
Definition took (r : res store) (s : store) : store := match r with Ok s' => s' | _ => s end.
Definition p_run (s : store) (ms : list meta) (data : bytes) : res store := run ex_env ex_px ex_clock p_mws s ms data.
Lemma p_step s ms data s' : lived ex_env ex_px s -> legal_b ms && sealed_b ms && bytes_b data = true -> p_run s ms data = Ok s' -> lived ex_env ex_px s'.
Proof.
  intros L B H. apply andb_prop in B. destruct B as [B B3]. apply andb_prop in B. destruct B as [B1 B2].
  eapply lived_proxy; [exact L|exact p_guarded|apply legal_ok; exact B1|apply sealed_ok; exact B2|apply bytes_ok; exact B3|exact H].
Qed.
(** The market is created. *)
Definition ms_p1 : list meta := map k_ [30; 31; 32; 33; 34; 35; 36; 17; 18; 0; p_auth; 301; 302].
Definition p1 : store := Eval vm_compute in transact ex_env ex_clock p0 (pack ix8) ms_p1.
(** User 140 opens an account through the proxy, then offers 3 lots at 70. *)
Definition ms_open (u oo : Z) : list meta := map k_ [7; 7; 0; oo] ++ [s_ u] ++ map k_ [30; 0; p_auth].
Definition data_open (b bi : Z) : bytes := 0 :: b :: bi :: pack IInitOO.
Definition p2 : store := Eval vm_compute in took (p_run p1 (ms_open 140 p_oo) (data_open 255 254)) p1.
Definition ms_p3 : list meta := map k_ [7; 30; p_oo; 31; 32; 33; 34; 142] ++ [s_ 140] ++ map k_ [35; 36; spl_id; 0].
Definition data_p3 : bytes := Eval vm_compute in 1 :: pack ix10.
Definition p3 : store := Eval vm_compute in took (p_run p2 ms_p3 data_p3) p2.
(** The order is cancelled, the final event consumed, the account settled and closed. *)
Definition p3_look := Eval vm_compute in of_look p3 30.
Definition p3_ask : leaf := Eval vm_compute in nth 0 (a_asks (snd (fst p3_look))) (mkLeaf 0 0 0 0 0 0).
Definition ms_p4 : list meta := map k_ [7; 30; 33; 34; p_oo] ++ [s_ 140; k_ 32].
Definition data_p4 : bytes := Eval vm_compute in 1 :: pack (ICancelV2 Ask (l_key p3_ask)).
Definition p4 : store := Eval vm_compute in took (p_run p3 ms_p4 data_p4) p3.
Definition ms_p5 : list meta := map k_ [7; p_oo; 30; 32] ++ [s_ 302].
Definition data_p5 : bytes := Eval vm_compute in 1 :: pack (IConsumePermissioned 5).
Definition p5 : store := Eval vm_compute in took (p_run p4 ms_p5 data_p5) p4.
Definition ms_p6 : list meta := map k_ [7; 30; p_oo] ++ [s_ 140] ++ map k_ [35; 36; 142; 143; 901; spl_id; 150].
Definition data_p6 : bytes := Eval vm_compute in 1 :: pack ISettleFunds.
Definition p6 : store := Eval vm_compute in took (p_run p5 ms_p6 data_p6) p5.
Definition ms_p7 : list meta := map k_ [7; p_oo] ++ [s_ 140] ++ map k_ [100; 30].
Definition data_p7 : bytes := Eval vm_compute in 1 :: pack ICloseOO.
Definition p7 : store := Eval vm_compute in took (p_run p6 ms_p7 data_p7) p6.
(** The prune authority prunes through the proxy instead. *)
Definition ms_prune : list meta := map k_ [7; 30; 33; 34] ++ [s_ 301] ++ map k_ [p_oo; 140; 32].
Definition data_prune : bytes := Eval vm_compute in 1 :: pack (IPrune 4).
Definition p4' : store := Eval vm_compute in took (p_run p3 ms_prune data_prune) p3.
Lemma p0_l : lived ex_env ex_px p0. Proof. apply lived_start, genesis_ok. vm_compute. reflexivity. Qed.
Lemma p1_l : lived ex_env ex_px p1.
Proof. replace p1 with (transact ex_env ex_clock p0 (pack ix8) ms_p1) by (vm_compute; reflexivity). apply lived_direct; [exact p0_l|apply legal_ok; reflexivity|apply sealed_ok; reflexivity]. Qed.
Ltac pnext H ms d := eapply (p_step _ ms d); [exact H|vm_compute; reflexivity|vm_compute; reflexivity].
Lemma p2_l : lived ex_env ex_px p2. Proof. pnext p1_l (ms_open 140 p_oo) (data_open 255 254). Qed.
Lemma p3_l : lived ex_env ex_px p3. Proof. pnext p2_l ms_p3 data_p3. Qed.
Lemma p4_l : lived ex_env ex_px p4. Proof. pnext p3_l ms_p4 data_p4. Qed.
Lemma p5_l : lived ex_env ex_px p5. Proof. pnext p4_l ms_p5 data_p5. Qed.
Lemma p6_l : lived ex_env ex_px p6. Proof. pnext p5_l ms_p6 data_p6. Qed.
Lemma p7_l : lived ex_env ex_px p7. Proof. pnext p6_l ms_p7 data_p7. Qed.
Lemma p4'_l : lived ex_env ex_px p4'. Proof. pnext p3_l ms_prune data_prune. Qed.
Definition p3_m : market := Eval vm_compute in fst (fst p3_look).
Definition p3_oo : open_orders := Eval vm_compute in snd (nth 0 (snd p3_look) (0, oo_zero)).
Lemma p3_gated : dexd ex_env p3 30 = Some (DMarket p3_m) /\ gated ex_px 30 p3_m /\ in_use ex_env p3 30 p_oo p3_oo /\ address_of ex_px 30 140 p_oo.
Proof. split; [vm_compute; reflexivity|]. split; [split; [vm_compute; reflexivity|exists 254; vm_compute; reflexivity]|]. split; [repeat split; vm_compute; reflexivity|]. exists 255. vm_compute. reflexivity. Qed.
(** User 140 gives 7 as the bump instead. *)
Definition q_oo : Z := Eval vm_compute in match px_open ex_px 30 140 7 with Some a => a | None => 0 end.
Definition q2 : store := Eval vm_compute in took (p_run p1 (ms_open 140 q_oo) (data_open 7 254)) p1.
Lemma q2_run : p_run p1 (ms_open 140 q_oo) (data_open 7 254) = Ok q2. Proof. vm_compute. reflexivity. Qed.
Lemma q2_l : lived ex_env ex_px q2. Proof. pnext p1_l (ms_open 140 q_oo) (data_open 7 254). Qed.
Definition q2_m : market := Eval vm_compute in fst (fst (of_look q2 30)).
Definition q2_oo : open_orders := Eval vm_compute in snd (nth 0 (snd (of_look q2 30)) (0, oo_zero)).
Lemma q2_gated : dexd ex_env q2 30 = Some (DMarket q2_m) /\ gated ex_px 30 q2_m /\ in_use ex_env q2 30 q_oo q2_oo.
Proof. split; [vm_compute; reflexivity|]. split; [split; [vm_compute; reflexivity|exists 254; vm_compute; reflexivity]|]. repeat split; vm_compute; reflexivity. Qed.
