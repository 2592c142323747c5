(** Markets set up for the example program. *)
From Coq Require Import Sorting.Sorted.
From Verif Require Import Base BaseProofs Fees ListSum Queue Codec Critbit CritbitSlab Market Slots Matching MatchSteps Ledger Core CoreNew Instr InstrProofs Store Process StoreProofs World WorldInv WorldLoad WorldRun WorldStep WorldSpec WorldFacts WorldMain WorldPay WorldAuth WorldRights WorldCrank WorldCancel Proxy ProxySpec ProxyAmounts ProxyProofs ProxyMain ProxyMore Client Permissioned PermSpec PermProofs.

Section Main.
Variable e : env.
Hypothesis EO : env_ok e.
Variable px : pxenv.
Hypothesis PO : px_ok e px.
Variable prune : Z -> option Z.
Hypothesis RO : prune_ok e px prune.
Notation D := (dexd e).

Lemma asks_one data i j : asks data i -> asks data j -> i = j.
Proof. intros (U & _) (V & _). congruence. Qed.
Lemma no_rent ms : outside px prune ms -> forall a, In a ms -> mk a = rent_id -> mk_signer a = false.
Proof. intros (_ & N & _) a IA E. destruct (mk_signer a) eqn:S; [|reflexivity]. exfalso. apply N. exists a. auto. Qed.
Lemma stripped ms w : signed_by (without_token ms) w -> signed_by ms w.
Proof. destruct ms as [|d [|t l]]; intros (a & IA & E & S); [destruct IA|destruct IA|]. exists a. split; [|auto]. cbn [without_token] in IA. destruct IA as [<-|IA]; [left; reflexivity|right; right; exact IA]. Qed.
Lemma legal_by ms : legal e ms <-> forall w, signed_by ms w -> ~ is_pda e w.
Proof. split; [intros L w (a & IA & <- & S); exact (L a IA S)|intros L a IA S; apply L; exists a; auto]. Qed.
Lemma keeper_ok ms accts : legal e ms -> sealed px ms -> keeper_signs prune ms accts -> legal e (merge accts) /\ sealed px (merge accts).
Proof.
  intros LG SE KS. rewrite legal_by in *. split.
  - intros w SW. apply merge_signed in SW. destruct (KS w SW) as [S|(k & E)]; [exact (LG w S)|exact (pr_dex _ _ _ RO _ _ E)].
  - intros w SW. apply merge_signed in SW. destruct (KS w SW) as [S|(k & E)]; [exact (SE w S)|]. split; [intros k' u; exact (pr_open _ _ _ RO _ _ _ _ E)|intros k' b; exact (pr_init _ _ _ RO _ _ _ _ E)].
Qed.
Lemma as_tx c s i ms s' : wf_instr i -> process e c s i ms = Ok s' -> transact e c s (pack i) ms = s'.
Proof. intros WF H. unfold transact, process_bytes. rewrite (pack_unpack _ WF). cbn [ok_or rbind]. rewrite H. reflexivity. Qed.
Lemma hosted_step s c ms data s' : lived e px s -> legal e ms -> outside px prune ms -> is_bytes data -> entry e px prune c s ms data = Ok s' -> lived e px s'.
Proof.
  intros L LG OU HB H. assert (ST : legal e (without_token ms) /\ sealed px (without_token ms)).
  { split; [rewrite legal_by in *; intros w SW; exact (LG w (stripped _ _ SW))|]. intros w SW. exact (proj1 OU w (stripped _ _ SW)). }
  destruct (entry_kind e px prune c s ms data s' (no_rent ms OU) HB H) as [->|i AK US SH R|n AK R|n k a b AK WF _ _ _ _ _ PR KS|n k a l l1 AK WF _ _ _ PR KS].
  - exact L.
  - eapply lived_proxy; [exact L|exact example_guarded|exact (proj1 ST)|exact (proj2 ST)|exact HB|exact R].
  - eapply lived_proxy; [exact L|exact example_guarded|exact LG|exact (proj1 OU)|exact HB|exact R].
  - destruct (keeper_ok _ _ LG (proj1 OU) KS) as [K1 K2]. rewrite <- (as_tx _ _ _ _ _ WF PR). apply lived_direct; assumption.
  - destruct (keeper_ok _ _ LG (proj1 OU) KS) as [K1 K2]. rewrite <- (as_tx _ _ _ _ _ WF PR). apply lived_direct; assumption.
Qed.
Theorem hosted_lived s : hosted e px prune s -> lived e px s.
Proof.
  induction 1 as [s G|s c b ms L IH LG OU|s c ms data s' L IH LG OU HB H|s s' L IH R].
  - apply lived_start. exact G.
  - apply lived_direct; [exact IH|exact LG|exact (proj1 OU)].
  - eapply hosted_step; eassumption.
  - eapply lived_env; eassumption.
Qed.
Theorem hosted_anytime s : hosted e px prune s -> anytime e s.
Proof. intros H. exact (lived_anytime e EO px PO s (hosted_lived s H)). Qed.
Theorem entry_history c s ms data s' : legal e ms -> outside px prune ms -> is_bytes data -> entry e px prune c s ms data = Ok s' -> history e s -> no_overflow e s -> sized s -> history e s'.
Proof.
  intros LG OU HB H HI NO SZ. assert (ST : legal e (without_token ms)) by (rewrite legal_by in *; intros w SW; exact (LG w (stripped _ _ SW))).
  destruct (entry_kind e px prune c s ms data s' (no_rent ms OU) HB H) as [->|i AK US SH R|n AK R|n k a b AK WF _ _ _ _ _ PR KS|n k a l l1 AK WF _ _ _ PR KS].
  - exact HI.
  - exact (run_history e EO px PO _ _ _ _ _ _ example_guarded ST HB R HI NO SZ).
  - exact (run_history e EO px PO _ _ _ _ _ _ example_guarded LG HB R HI NO SZ).
  - destruct (keeper_ok _ _ LG (proj1 OU) KS) as [K1 K2]. rewrite <- (as_tx _ _ _ _ _ WF PR). apply reach_tx; [exact HI|exact NO|exact SZ|apply pack_bytes|exact K1].
  - destruct (keeper_ok _ _ LG (proj1 OU) KS) as [K1 K2]. rewrite <- (as_tx _ _ _ _ _ WF PR). apply reach_tx; [exact HI|exact NO|exact SZ|apply pack_bytes|exact K1].
Qed.

(** ** Around the program *)
Theorem set_up_direct s c i ms s' k m x oo : hosted e px prune s -> D s k = Some (DMarket m) -> set_up px prune k m -> in_use e s k x oo -> outside px prune ms ->
  process e c s i ms = Ok s' -> D s' x = D s x.
Proof.
  intros HO HM (GA & NC & PA & CA) IU (SE & _ & NS) H. destruct (view_dec e s s' x) as [Q|NE]; [exact Q|exfalso].
  destruct (gated_direct e EO px PO s c i ms s' k m x oo (hosted_lived s HO) HM GA IU SE H NE) as [(_ & S)|CI]; [exact (NS _ S k PA)|].
  destruct (crank_view e EO s c i ms s' (anytime_struct e EO s (hosted_anytime s HO)) H CI) as (k1 & m1 & _ & HM1 & SG & _ & (q & q' & HQ & _) & V).
  destruct IU as (HX & FX & KX). destruct (Z.eq_dec x (m_event_q m1)) as [->|NX]; [congruence|]. destruct (V x NX) as [Q|(o1 & o2 & (LV & L1 & L2) & _)]; [exact (NE Q)|].
  assert (k1 = k) by congruence. subst k1. assert (m1 = m) by congruence. subst m1. exact (NS _ (SG NC) k CA).
Qed.
(** ** Through the program *)
Theorem set_up_entry s c ms data s' k m x oo u : hosted e px prune s -> D s k = Some (DMarket m) -> set_up px prune k m -> in_use e s k x oo -> legal e ms -> outside px prune ms -> is_bytes data ->
  entry e px prune c s ms data = Ok s' -> D s' x <> D s x -> address_of px k u x ->
  exists i, asks data i /\ ((shows_token ms /\ users i /\ signed_by ms u) \/ (~ shows_token ms /\ keepers i)).
Proof.
  intros HO HM SU IU LG OU HB H NE A.
  destruct (entry_kind e px prune c s ms data s' (no_rent ms OU) HB H) as [->|i AK US SH R|n AK R|n k1 a b AK WF NT _ _ _ _ PR KS|n k1 a l l1 AK WF NT _ _ PR KS].
  - congruence.
  - exists i. split; [exact AK|]. left. split; [exact SH|]. split; [exact US|].
    assert (ST : legal e (without_token ms) /\ sealed px (without_token ms)).
    { split; [rewrite legal_by in *; intros w SW; exact (LG w (stripped _ _ SW))|]. intros w SW. exact (proj1 OU w (stripped _ _ SW)). }
    destruct (gated_proxy e EO px PO s c example_mws _ data s' k m x oo u (hosted_lived s HO) HM (proj1 SU) IU example_guarded (proj1 ST) (proj2 ST) HB R NE A) as [(S & _)|[((n & AN) & _)|(j & AJ & n & CJ)]].
    + exact (stripped _ _ S).
    + pose proof (asks_one _ _ _ AK AN) as ->. destruct US.
    + pose proof (asks_one _ _ _ AK AJ) as ->. destruct CJ as [->| ->]; destruct US.
  - exfalso. apply NE. destruct (run_passed e px c example_mws s ms data s' _ example_guarded HB R AK) as (acc & (_ & SP) & PR); [exists n; auto|].
    eapply set_up_direct; [exact HO|exact HM|exact SU|exact IU| |exact PR].
    assert (SB : forall w, signed_by acc w -> signed_by ms w).
    { intros w (z & IZ & <- & SZ). apply (SP z IZ) in SZ. destruct SZ as (y & IY & EY & SY). exists y. split; [destruct ms; [destruct IY|right; exact IY]|auto]. }
    destruct OU as (O1 & O2 & O3). split; [intros w S; exact (O1 w (SB w S))|]. split; [intros S; exact (O2 (SB _ S))|intros w S; exact (O3 w (SB w S))].
  - exists (IPrune n). split; [exact AK|]. right. split; [exact NT|exact I].
  - exists (IConsumePermissioned n). split; [exact AK|]. right. split; [exact NT|exact I].
Qed.
Theorem set_up_accounts s : hosted e px prune s -> forall k m x oo, D s k = Some (DMarket m) -> gated px k m -> in_use e s k x oo -> oo_owner oo = x /\ exists u, address_of px k u x.
Proof. intros HO. exact (gated_accounts e EO px PO s (hosted_lived s HO)). Qed.

(** ** Who may do what *)
Theorem users_need_token c s ms data s' i : outside px prune ms -> is_bytes data -> entry e px prune c s ms data = Ok s' -> asks data i -> users i ->
  shows_token ms /\ run e px c example_mws s (without_token ms) data = Ok s'.
Proof.
  intros OU HB H AK US. destruct (entry_kind e px prune c s ms data s' (no_rent ms OU) HB H) as [_ N|j AJ _ SH R|n AJ R|n k a b AJ WF NT|n k a l l1 AJ WF NT].
  - exfalso. exact (N _ AK).
  - auto.
  - pose proof (asks_one _ _ _ AK AJ) as ->. destruct US.
  - pose proof (asks_one _ _ _ AK AJ) as ->. destruct US.
  - pose proof (asks_one _ _ _ AK AJ) as ->. destruct US.
Qed.
Lemma skip2_nth (ms : list meta) j : nth_error (skipn 2 ms) j = nth_error ms (S (S j)).
Proof. destruct ms as [|a [|b l]]; [destruct j; reflexivity|destruct j; reflexivity|reflexivity]. Qed.
Theorem entry_pruned c s ms data s' n : outside px prune ms -> is_bytes data -> entry e px prune c s ms data = Ok s' -> asks data (IPrune n) ->
  ~ shows_token ms /\ exists k a b acc1 acc2 acc3, key_at ms 2 = Some k /\ key_at ms 5 = Some a /\ nth_error ms 6 = Some b /\ (signed_by ms a \/ prune k = Some a) /\
    replaced 3 (mkMeta a true) (skipn 2 ms) acc1 /\ replaced 5 b acc1 acc2 /\ spread acc2 acc3 /\ process e c s (IPrune n) acc3 = Ok s'.
Proof.
  intros OU HB H AK. destruct (entry_kind e px prune c s ms data s' (no_rent ms OU) HB H) as [_ N|j AJ US SH R|n1 AJ R|n1 k a b AJ WF NT K2 K5 K6 SB PR KS|n1 k a l l1 AJ WF NT].
  - exfalso. exact (N _ AK).
  - pose proof (asks_one _ _ _ AK AJ) as <-. destruct US.
  - pose proof (asks_one _ _ _ AK AJ). discriminate.
  - pose proof (asks_one _ _ _ AK AJ) as Q. injection Q as <-. split; [exact NT|]. exists k, a, b. eexists. eexists. eexists. split; [exact K2|]. split; [exact K5|]. split; [exact K6|]. split; [exact SB|].
    unfold key_at in K5. destruct (nth_error ms 5) as [a5|] eqn:N5; [|discriminate]. assert (L3 : (3 < length (skipn 2 ms))%nat) by (apply nth_error_Some; rewrite skip2_nth; congruence).
    assert (L5 : (5 < length (skipn 2 ms))%nat).
    { cbn [process] in PR. unfold proc_prune in PR. pose proof (merge_len (set_nth 5 b (set_nth 3 (mkMeta a true) (skipn 2 ms)))) as ML. rewrite !set_nth_len in ML.
      destruct (merge (set_nth 5 b (set_nth 3 (mkMeta a true) (skipn 2 ms)))) as [|? [|? [|? [|? [|? [|? ?]]]]]]; try discriminate. rewrite <- ML. cbn [length]. lia. }
    split; [apply set_nth_replaced; exact L3|]. split; [apply set_nth_replaced; rewrite set_nth_len; exact L5|]. split; [apply merge_spread|exact PR].
  - pose proof (asks_one _ _ _ AK AJ). discriminate.
Qed.
Theorem entry_consumed c s ms data s' n : outside px prune ms -> is_bytes data -> entry e px prune c s ms data = Ok s' -> asks data (IConsumePermissioned n) ->
  ~ shows_token ms /\ exists l k q a acc, skipn 2 ms = l ++ [k; q; a] /\ (signed_by ms (mk a) \/ prune (mk k) = Some (mk a)) /\
    spread (l ++ [k; q; mkMeta (mk a) true]) acc /\ process e c s (IConsumePermissioned n) acc = Ok s'.
Proof.
  intros OU HB H AK. destruct (entry_kind e px prune c s ms data s' (no_rent ms OU) HB H) as [_ N|j AJ US SH R|n1 AJ R|n1 k a b AJ WF NT K2 K5 K6 SB PR KS|n1 k a l l1 AJ WF NT SK SB PR KS].
  - exfalso. exact (N _ AK).
  - pose proof (asks_one _ _ _ AK AJ) as <-. destruct US.
  - pose proof (asks_one _ _ _ AK AJ). discriminate.
  - pose proof (asks_one _ _ _ AK AJ). discriminate.
  - pose proof (asks_one _ _ _ AK AJ) as Q. injection Q as <-. split; [exact NT|]. exists l, k, l1, a. eexists. split; [exact SK|]. split; [exact SB|]. split; [apply merge_spread|exact PR].
Qed.
Theorem entry_cranked c s ms data s' n : outside px prune ms -> is_bytes data -> entry e px prune c s ms data = Ok s' -> asks data (IConsumeEvents n) ->
  exists acc, spread (tl ms) acc /\ process e c s (IConsumeEvents n) acc = Ok s'.
Proof.
  intros OU HB H AK. destruct (entry_kind e px prune c s ms data s' (no_rent ms OU) HB H) as [_ N|j AJ US SH R|n1 AJ R|n1 k a b AJ|n1 k a l l1 AJ].
  - exfalso. exact (N _ AK).
  - pose proof (asks_one _ _ _ AK AJ) as <-. destruct US.
  - apply (run_passed e px c example_mws s ms data s' _ example_guarded HB R AK). exists n. auto.
  - pose proof (asks_one _ _ _ AK AJ). discriminate.
  - pose proof (asks_one _ _ _ AK AJ). discriminate.
Qed.
Theorem entry_else c s ms data s' : outside px prune ms -> is_bytes data -> entry e px prune c s ms data = Ok s' -> (forall i, ~ asks data i) -> s' = s /\ shows_token ms.
Proof.
  intros OU HB H N. destruct (entry_kind e px prune c s ms data s' (no_rent ms OU) HB H) as [-> _ SH|j AJ|n1 AJ|n1 k a b AJ|n1 k a l l1 AJ]; [auto|exfalso; exact (N _ AJ)..].
Qed.
Theorem entry_referral c s ms data s' : outside px prune ms -> is_bytes data -> anytime e s -> entry e px prune c s ms data = Ok s' -> asks data ISettleFunds ->
  exists a t, key_at ms 11 = Some a /\ token_at s a = Some t /\ t_owner t = referral_id.
Proof.
  intros OU HB AT H AK. destruct (users_need_token c s ms data s' _ OU HB H AK I) as (SH & R).
  destruct (run_referral e px c example_mws s _ data s' referral_id example_guarded HB AT R AK) as (a & t & K & T & O); [right; left; reflexivity|].
  exists a, t. split; [|auto]. destruct ms as [|d [|tk l]]; [discriminate|discriminate|exact K].
Qed.

(** ** What it accepts *)
Lemma replaced_is i a l l' : (i < length l)%nat -> replaced i a l l' -> l' = set_nth i a l.
Proof.
  intros LU (RL1 & RA & RR). apply nth_ext with (d := mkMeta 0 false) (d' := mkMeta 0 false); [rewrite set_nth_len; exact RL1|]. intros j LJ.
  destruct (Nat.eq_dec j i) as [->|NJ]; [rewrite (nth_error_nth _ _ _ RA), (nth_error_nth _ _ _ (set_nth_at i a l LU)); reflexivity|].
  assert (LJ' : (j < length (set_nth i a l))%nat) by (rewrite set_nth_len; lia).
  pose proof (nth_error_nth' _ (mkMeta 0 false) LJ) as Q1. pose proof (nth_error_nth' _ (mkMeta 0 false) LJ') as Q2. rewrite RR in Q1 by exact NJ. rewrite set_nth_other in Q2 by congruence. congruence.
Qed.
Lemma allowed_as d tok acc own l : (forall a, In a l -> In a acc \/ In (mk a) own) -> forallb (may_sign (d :: tok :: acc) (own ++ [])) l = true.
Proof.
  intros H. apply forallb_forall. intros a IA. unfold may_sign. rewrite app_nil_r. destruct (mk_signer a) eqn:SA; [|reflexivity]. cbn [negb orb]. destruct (H a IA) as [I1|I1].
  - replace (signed_in (d :: tok :: acc) (mk a)) with true; [reflexivity|]. symmetry. apply signed_in_by. exists a. split; [right; right; exact I1|auto].
  - apply orb_true_iff. right. apply existsb_exists. exists (mk a). split; [exact I1|apply Z.eqb_refl].
Qed.
Lemma at_some (l : list meta) j v : nth_error l j = Some v -> at_ l j = Ok v.
Proof. intros H. unfold at_, unwrap. rewrite H. reflexivity. Qed.
Lemma revoked_fwd tok acc : mk tok <> rent_id -> with_revoked (tok :: acc) = Ok acc.
Proof. intros NT. unfold with_revoked, at_, unwrap. cbn [nth_error rbind skipn]. replace (mk tok =? rent_id) with false by lia. reflexivity. Qed.
Theorem prune_complete c s d tok acc n k a b acc1 acc2 s' : wf_instr (IPrune n) -> mk tok <> rent_id -> key_at acc 0 = Some k -> key_at acc 3 = Some a -> prune k = Some a -> nth_error acc 4 = Some b ->
  replaced 3 (mkMeta a true) acc acc1 -> replaced 5 b acc1 acc2 -> process e c s (IPrune n) acc2 = Ok s' -> d <> 0 ->
  entry e px prune c s (mkMeta (e_prog e) false :: tok :: acc) (d :: pack (IPrune n)) = Ok s'.
Proof.
  intros WF NT K0 K3 PA N4 R1 R2 PR ND. unfold key_at in K0, K3. destruct (nth_error acc 0) as [mkt|] eqn:N0; [|discriminate]. destruct (nth_error acc 3) as [a3|] eqn:N3; [|discriminate]. cbn [option_map] in K0, K3. injection K0 as <-. injection K3 as <-.
  assert (L3 : (3 < length acc)%nat) by (apply nth_error_Some; congruence). assert (L2 : length acc2 = length acc) by (rewrite (proj1 R2); exact (proj1 R1)).
  assert (L5 : (5 < length acc)%nat) by (rewrite <- L2; apply nth_error_Some; rewrite (proj1 (proj2 R2)); discriminate).
  assert (E1 : acc1 = set_nth 3 (mkMeta (mk a3) true) acc) by (apply replaced_is; assumption). assert (E2 : acc2 = set_nth 5 b acc1) by (apply replaced_is; [rewrite (proj1 R1); exact L5|exact R2]).
  assert (N5 : exists b5, nth_error acc 5 = Some b5) by (destruct (nth_error acc 5) eqn:Q; [eauto|apply nth_error_None in Q; lia]). destruct N5 as (b5 & N5).
  unfold entry. cbn [mk]. rewrite Z.eqb_refl. cbn [check rbind]. rewrite (instruct_main [MLogger; MReferral referral_id] 0 0 []) by (repeat constructor; assumption). cbn [app rbind]. rewrite (pack_unpack _ WF). cbn [relayed].
  replace ((7 <=? length (tok :: acc))%nat) with true by (symmetry; apply Nat.leb_le; cbn [length]; lia). cbn [check rbind identity].
  rewrite (revoked_fwd _ _ NT). cbn [rbind]. rewrite (at_some _ _ _ N0). cbn [rbind]. rewrite PA. cbn [unwrap rbind]. rewrite (at_some _ _ _ N3). cbn [rbind].
  cbn [handle_all handle rbind]. unfold pda_prune. cbn [x_accts x_store x_seeds x_pre x_post]. rewrite (at_some _ 4 b) by (rewrite set_nth_other by discriminate; exact N4). cbn [rbind]. rewrite (at_some _ 5 b5) by (rewrite set_nth_other by discriminate; exact N5). cbn [rbind x_accts x_store x_seeds x_pre x_post call_tokens].
  rewrite <- E1, <- E2. unfold call_dex_as. cbn [seed_keys ok_or rbind].
  rewrite allowed_as. 2:{ intros z IZ. rewrite E2 in IZ. apply set_nth_in in IZ. destruct IZ as [->|IZ]; [left; eapply nth_error_In; exact N4|]. rewrite E1 in IZ. apply set_nth_in in IZ. destruct IZ as [->|IZ]; [right; left; reflexivity|left; exact IZ]. }
  cbn [check rbind]. unfold process_bytes. rewrite (pack_unpack _ WF). cbn [ok_or rbind]. rewrite (process_mono e c s _ acc2 (merge acc2) (merge_le acc2) _ PR). reflexivity.
Qed.
Theorem consume_complete c s d tok l k q a n s' : wf_instr (IConsumePermissioned n) -> mk tok <> rent_id -> prune (mk k) = Some (mk a) ->
  process e c s (IConsumePermissioned n) (l ++ [k; q; mkMeta (mk a) true]) = Ok s' -> d <> 0 ->
  entry e px prune c s (mkMeta (e_prog e) false :: tok :: l ++ [k; q; a]) (d :: pack (IConsumePermissioned n)) = Ok s'.
Proof.
  intros WF NT PA PR ND. assert (LL : length (l ++ [k; q; a]) = (length l + 3)%nat) by (rewrite app_length; reflexivity).
  assert (N1 : nth_error (l ++ [k; q; a]) (length (l ++ [k; q; a]) - 3) = Some k) by (rewrite LL, nth_error_app2 by lia; replace (length l + 3 - 3 - length l)%nat with 0%nat by lia; reflexivity).
  assert (N2 : nth_error (l ++ [k; q; a]) (length (l ++ [k; q; a]) - 1) = Some a) by (rewrite LL, nth_error_app2 by lia; replace (length l + 3 - 1 - length l)%nat with 2%nat by lia; reflexivity).
  unfold entry. cbn [mk]. rewrite Z.eqb_refl. cbn [check rbind]. rewrite (instruct_main [MLogger; MReferral referral_id] 0 0 []) by (repeat constructor; assumption). cbn [app rbind]. rewrite (pack_unpack _ WF). cbn [relayed].
  match goal with |- context [(?n0 <=? length (tok :: l ++ [k; q; a]))%nat] => replace ((n0 <=? length (tok :: l ++ [k; q; a]))%nat) with true by (symmetry; apply Nat.leb_le; cbn [length]; rewrite LL; lia) end. cbn [check rbind identity].
  rewrite (revoked_fwd _ _ NT). cbn [rbind]. unfold passert, at_, unwrap. replace ((3 <=? length (l ++ [k; q; a]))%nat) with true by (symmetry; apply Nat.leb_le; lia). cbn [rbind].
  rewrite N1. cbn [rbind]. rewrite PA. cbn [rbind]. rewrite N2. cbn [rbind]. rewrite set_last.
  cbn [handle_all handle rbind x_accts x_store x_seeds x_pre x_post call_tokens]. unfold call_dex_as. cbn [seed_keys ok_or rbind].
  rewrite allowed_as. 2:{ intros z IZ. apply in_app_or in IZ. destruct IZ as [IZ|[<-|[<-|[<-|[]]]]]; [left; apply in_or_app; left; exact IZ|left; apply in_or_app; right; left; reflexivity|left; apply in_or_app; right; right; left; reflexivity|right; left; reflexivity]. }
  cbn [check rbind]. unfold process_bytes. rewrite (pack_unpack _ WF). cbn [ok_or rbind]. rewrite (process_mono e c s _ _ _ (merge_le _) _ PR). reflexivity.
Qed.
(** Anyone, without a signature, has a user's orders pruned and the queue served. *)
Lemma set_up_flags s k m A L : winv e s -> seen e s k m A L -> set_up px prune k m -> has_flag (m_flags m) AF_Permissioned = true /\ has_flag (m_flags m) AF_CrankAuth = true.
Proof.
  intros WI SN (_ & (N1 & N2) & _). unfold permissioned in N1. pose proof (flags_any _ (ws_flags _ (wi_str _ _ WI) _ _ (sn_mkt _ _ _ _ _ _ SN))) as F. cbn [In] in F.
  destruct F as [F|[F|[F|[F|[F|[F|[]]]]]]]; rewrite <- F in *; try discriminate N1; try discriminate N2; split; reflexivity.
Qed.
Theorem anyone_prunes s k m A L c tok n x oo y d : hosted e px prune s -> history e s -> seen e s k m A L -> usable m -> set_up px prune k m -> ~ disabled m -> In (x, oo) L -> 0 <= n < 65536 -> mk tok <> rent_id -> d <> 0 ->
  places e s m (Z.min n (zlen (own_orders x (a_bids A)) + zlen (own_orders x (a_asks A)))) ->
  exists s', entry e px prune c s [mkMeta (e_prog e) false; tok; mkMeta k false; mkMeta (m_bids m) false; mkMeta (m_asks m) false; mkMeta (m_prune_auth m) false; mkMeta x false; y; mkMeta (m_event_q m) false] (d :: pack (IPrune n)) = Ok s' /\
    (exists bl al, cancels e s s' k m A L x oo bl al) /\
    (2 * (zlen (a_bids A) + zlen (a_asks A)) <= n -> cancels e s s' k m A L x oo (own_orders x (a_bids A)) (own_orders x (a_asks A))).
Proof.
  intros HO HI SN UM SU ND IN HN NT N0 PL. pose proof (sn_mkt _ _ _ _ _ _ SN) as HM. pose proof SU as (GA & NC & PA & CA). pose proof (reachable_inv e EO s HI) as WI.
  destruct (set_up_flags s k m A L WI SN SU) as [PF _].
  destruct (seen_state e s k m A L WI SN UM) as (seq & o & MS). assert (LV : live (D s) k x oo) by (apply (ms_lists _ _ _ _ _ _ _ MS); exact IN). destruct LV as (V1 & V2 & V3).
  assert (OW : oo_owner oo = x) by (apply (proj1 (set_up_accounts s HO k m x oo HM GA ltac:(split; [exact V1|split; assumption])))).
  destruct (prune_succeeds e s k m A L WI SN UM c n x oo PF ND IN ltac:(lia) PL) as (s' & H). exists s'. split.
  - rewrite OW in H. eapply (prune_complete c s d tok _ n k (m_prune_auth m) (mkMeta x false) [mkMeta k false; mkMeta (m_bids m) false; mkMeta (m_asks m) false; mkMeta (m_prune_auth m) true; mkMeta x false; y; mkMeta (m_event_q m) false]); [exact HN|exact NT|reflexivity|reflexivity|exact PA|reflexivity| | |exact H|exact N0].
    + split; [reflexivity|]. split; [reflexivity|]. intros j NJ. do 7 (destruct j as [|j]; [try reflexivity; congruence|]). reflexivity.
    + split; [reflexivity|]. split; [reflexivity|]. intros j NJ. do 7 (destruct j as [|j]; [try reflexivity; congruence|]). reflexivity.
  - destruct (prune_effect e EO s k m A L WI SN UM c n _ s' H eq_refl ltac:(lia)) as (x1 & oo1 & bl & al & K4 & IN1 & _ & _ & _ & _ & _ & _ & C1 & C2).
    unfold key_at in K4. cbn [nth_error option_map mk] in K4. injection K4 as <-. assert (oo1 = oo) by (apply (ms_lists _ _ _ _ _ _ _ MS) in IN1; destruct IN1 as (W1 & _); congruence). subst oo1.
    split; [exists bl, al; exact C1|exact C2].
Qed.
Theorem anyone_consumes s k m A L c tok oos n d : history e s -> no_overflow e s -> seen e s k m A L -> usable m -> set_up px prune k m -> oos <> [] -> StronglySorted Z.lt oos -> 0 <= n < 65536 -> mk tok <> rent_id -> d <> 0 ->
  exists s', entry e px prune c s (mkMeta (e_prog e) false :: tok :: map (fun x => mkMeta x false) oos ++ [mkMeta k false; mkMeta (m_event_q m) false; mkMeta (m_crank_auth m) false]) (d :: pack (IConsumePermissioned n)) = Ok s' /\
    consumes e s s' k m A L (served (Z.to_nat n) oos (a_evs A)).
Proof.
  intros HI G SN UM SU NE SO HN NT N0. pose proof SU as (GA & NC & PA & CA). pose proof (reachable_inv e EO s HI) as WI. destruct (set_up_flags s k m A L WI SN SU) as [F1 F2].
  set (ms := map (fun x => mkMeta x false) oos ++ [mkMeta k false; mkMeta (m_event_q m) false; mkMeta (m_crank_auth m) true]).
  assert (CK : crank (IConsumePermissioned n) ms k (m_event_q m) oos n).
  { split; [exact NE|]. split; [lia|]. right. split; [reflexivity|]. exists (m_crank_auth m). unfold ms. rewrite map_app, map_map. cbn [map mk]. rewrite map_id. reflexivity. }
  assert (AL : crank_allowed m (IConsumePermissioned n) ms).
  { split; [exact F1|]. split; [exact F2|]. exists (map (fun x => mkMeta x false) oos ++ [mkMeta k false; mkMeta (m_event_q m) false]). unfold ms. rewrite <- app_assoc. reflexivity. }
  destruct (crank_succeeds e EO s k m A L WI G SN UM c _ _ oos n CK AL) as (s' & H). exists s'. split; [|exact (proj2 (proj2 (crank_effect e EO s k m A L WI G SN UM c _ _ _ oos n s' CK SO H)))].
  apply consume_complete; [exact HN|exact NT|exact CA|exact H|exact N0].
Qed.
(** And with the token, a user can do whatever their address could. *)
Theorem entry_accepts c s d tok acc n i mi ui oi k u x s' : mk tok = rent_id -> mk_signer tok = false -> wf_instr i -> spots i = Some (mi, ui, oi) -> relayed i = Some n -> (n <= length acc)%nat ->
  key_at acc mi = Some k -> signs acc ui u -> key_at acc oi = Some x -> px_open px k u (px_bump px k u) = Some x ->
  (i = ISettleFunds -> exists a t, key_at acc 9 = Some a /\ token_at s a = Some t /\ t_owner t = referral_id) ->
  forall acc', replaced ui (mkMeta x true) acc acc' -> process e c s i acc' = Ok s' -> d <> 0 ->
  entry e px prune c s (mkMeta (e_prog e) false :: tok :: acc) (d :: pack i) = Ok s'.
Proof.
  intros HT NS WF SP RL LE HK HU HX HP RF acc' RP PR ND.
  assert (US : users i) by (destruct i; cbn [spots] in SP; try discriminate; exact I).
  rewrite (entry_is_run e px prune c s _ tok acc _ i n HT NS); [|split; [cbn [payload]; unfold payload; destruct d; try congruence; exact (pack_unpack _ WF)|congruence]|exact US|exact RL|exact LE].
  eapply run_complete; try eassumption; [exact example_guarded|]. intros EI r [Q|[Q|[Q|[]]]]; [discriminate| |discriminate]. injection Q as <-. exact (RF EI).
Qed.
End Main.
