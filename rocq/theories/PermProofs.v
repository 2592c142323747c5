(** What a call of the example program does. *)
From Verif Require Import Base BaseProofs Fees ListSum Queue Codec Critbit CritbitSlab Market Slots Matching MatchSteps Ledger Core CoreNew Instr InstrProofs Store Process StoreProofs World WorldInv WorldLoad WorldRun WorldStep WorldSpec WorldFacts WorldMain WorldPay WorldAuth WorldRights WorldCrank WorldCancel Proxy ProxySpec ProxyAmounts ProxyProofs ProxyMain ProxyMore Client Permissioned PermSpec.

(** ** Data can be compared *)
Lemma adata_dec (a b : adata) : {a = b} + {a <> b}.
Proof.
  repeat decide equality.
Qed.
Lemma view_dec e s s' x : {dexd e s' x = dexd e s x} + {dexd e s' x <> dexd e s x}.
Proof. decide equality. apply adata_dec. Qed.

(** ** Signatures of the caller *)
Section Same.
Variable e : env.
Variable px : pxenv.
Variables ms ms' : list meta.
Hypothesis S : forall k, signed_in ms k = signed_in ms' k.
Lemma same_handle i m x : handle e px ms i m x = handle e px ms' i m x.
Proof.
  destruct m; try reflexivity. destruct i; try reflexivity. cbn [handle]. unfold pda_init, create_oo.
  destruct (at_ (x_accts x) 4); [|reflexivity|reflexivity]. cbn [rbind]. destruct (at_ (x_accts x) 3); [|reflexivity|reflexivity]. cbn [rbind].
  destruct (x_accts x) as [|a1 [|a2 [|a3 [|a4 [|a5 [|a6 [|a7 l]]]]]]]; try reflexivity. rewrite S. reflexivity.
Qed.
Lemma same_handles i l : forall x, handle_all e px ms i l x = handle_all e px ms' i l x.
Proof. induction l as [|m l IH]; intros x; cbn [handle_all]; [reflexivity|]. rewrite same_handle. destruct (handle e px ms' i m x); cbn [rbind]; auto. Qed.
Lemma same_calls l : forall s, call_tokens s ms l = call_tokens s ms' l.
Proof.
  induction l as [|t l IH]; intros s; cbn [call_tokens]; [reflexivity|].
  assert (E : call_token s ms t = call_token s ms' t) by (destruct t; cbn [call_token]; unfold tok_set; rewrite S; reflexivity).
  rewrite E. destruct (call_token s ms' t); cbn [rbind]; auto.
Qed.
Lemma same_dex c s accts seeds i : call_dex_as e px c s ms accts [] seeds i = call_dex e px c s ms' accts seeds i.
Proof.
  unfold call_dex_as, call_dex. destruct (ok_or (seed_keys px seeds) EOther) as [pdas| |]; [|reflexivity|reflexivity]. cbn [rbind app].
  replace (forallb (may_sign ms pdas) accts) with (forallb (may_sign ms' pdas) accts); [reflexivity|].
  induction accts as [|a l IH]; cbn [forallb]; [reflexivity|]. rewrite IH. unfold may_sign. rewrite S. reflexivity.
Qed.
End Same.
Lemma example_guarded : guarded example_mws.
Proof. exists [MLogger; MReferral referral_id], 0, 0, []. split; [reflexivity|]. split; repeat constructor. Qed.
Lemma example_instruct data mws d : instruct example_mws data = Ok (mws, d) -> d = payload data /\ exists b bi, mws = [MLogger; MReferral referral_id; MPda b bi].
Proof.
  intros H. assert (F1 : Forall not_pda [MLogger; MReferral referral_id]) by repeat constructor. assert (F2 : Forall not_pda []) by constructor.
  destruct (instruct_guarded [MLogger; MReferral referral_id] 0 0 [] data mws d F1 F2 H) as (b & bi & -> & -> & _). split; [reflexivity|]. exists b, bi. reflexivity.
Qed.

Section Perm.
Variable e : env.
Hypothesis EO : env_ok e.
Variable px : pxenv.
Hypothesis PO : px_ok e px.
Variable prune : Z -> option Z.
Hypothesis RO : prune_ok e px prune.
Notation D := (dexd e).

(** ** With the token *)
Theorem entry_is_run c s d tok acc data i n : mk tok = rent_id -> mk_signer tok = false -> asks data i -> users i -> relayed i = Some n -> (n <= length acc)%nat ->
  entry e px prune c s (d :: tok :: acc) data = run e px c example_mws s (d :: acc) data.
Proof.
  intros HT NS (HU & _) US RL LE. unfold entry, run. fold example_mws. destruct (mk d =? e_prog e); [|reflexivity]. cbn [check rbind].
  destruct (instruct example_mws data) as [[mws dd]| |] eqn:EI; [|reflexivity|reflexivity]. cbn [rbind]. destruct (example_instruct _ _ _ EI) as (-> & _). rewrite HU, RL.
  replace ((n <=? length (tok :: acc))%nat) with true by (symmetry; apply Nat.leb_le; cbn [length]; lia). replace ((n <=? length acc)%nat) with true by (symmetry; apply Nat.leb_le; exact LE). cbn [check rbind].
  assert (ID : identity prune i (tok :: acc) = Ok (acc, [])).
  { assert (T : with_token (tok :: acc) = Ok acc) by (unfold with_token, at_, unwrap; cbn [nth_error rbind]; rewrite HT, Z.eqb_refl; reflexivity). destruct i; cbn [users] in US; try contradiction; cbn [identity]; rewrite T; reflexivity. }
  rewrite ID. cbn [rbind].
  assert (S : forall k, signed_in (d :: tok :: acc) k = signed_in (d :: acc) k) by (intros k; unfold signed_in; cbn [existsb]; rewrite NS, andb_false_r; reflexivity).
  rewrite (same_handles e px _ _ S). destruct (handle_all e px (d :: acc) i mws _) as [x| |]; [|reflexivity|reflexivity]. cbn [rbind].
  rewrite (same_calls _ _ S). destruct (call_tokens (x_store x) (d :: acc) (x_pre x)) as [s1| |]; [|reflexivity|reflexivity]. cbn [rbind].
  rewrite (same_dex e px _ _ S). destruct (call_dex e px c s1 (d :: acc) (x_accts x) (x_seeds x) i) as [s2| |]; [|reflexivity|reflexivity]. cbn [rbind]. apply same_calls. exact S.
Qed.
(** Every call that succeeds is one of these. *)
Definition keeper_signs (ms accts : list meta) : Prop := forall w, signed_by accts w -> signed_by ms w \/ exists k, prune k = Some w.
Lemma merge_len l : length (merge l) = length l. Proof. unfold merge. apply map_length. Qed.
Lemma called_as c s ms accts own i s' : wf_instr i -> call_dex_as e px c s ms accts own [] i = Ok s' ->
  process e c s i (merge accts) = Ok s' /\ (forall w, signed_by accts w -> signed_by ms w \/ In w own).
Proof.
  intros WF H. unfold call_dex_as in H. cbn [seed_keys ok_or rbind] in H. rewrite app_nil_r in H. peel H. apply check_ok in E. unfold process_bytes in H. rewrite (pack_unpack _ WF) in H. cbn [ok_or rbind] in H. split; [exact H|].
  intros w (a & I & <- & S). rewrite forallb_forall in E. specialize (E a I). unfold may_sign in E. rewrite S in E. cbn [negb orb] in E.
  destruct (signed_in ms (mk a)) eqn:SI; [left; apply signed_in_by; exact SI|]. right. cbn [orb] in E. apply existsb_exists in E. destruct E as (p & IP & EP). assert (EQ : mk a = p) by lia. rewrite EQ. exact IP.
Qed.
(** The length the relayed call asks for. *)
Lemma len_order c s ix ms s' : proc_new_order e c s ix ms = Ok s' -> (12 <= length ms)%nat.
Proof. unfold proc_new_order. destruct ms as [|? [|? [|? [|? [|? [|? [|? [|? [|? [|? [|? [|? ?]]]]]]]]]]]]; try discriminate. intros _. cbn [length]. lia. Qed.
Lemma len_cancel s core ms s' : proc_cancel e s core ms = Ok s' -> (6 <= length ms)%nat.
Proof. unfold proc_cancel. destruct ms as [|? [|? [|? [|? [|? [|? ?]]]]]]; try discriminate. intros _. cbn [length]. lia. Qed.
Lemma len_close s ms s' : proc_close e s ms = Ok s' -> (4 <= length ms)%nat.
Proof. unfold proc_close. destruct ms as [|? [|? [|? [|? ?]]]]; try discriminate. intros _. cbn [length]. lia. Qed.
Lemma sign_len mi ui oi s l x : pda_sign px mi ui oi (mkCtx s l [] [] []) = Ok x -> length (merge (x_accts x)) = length l.
Proof. unfold pda_sign. cbn [x_accts x_store x_seeds x_pre x_post]. intros H. do 4 peel H. injection H as <-. cbn [x_accts]. rewrite merge_len. apply set_nth_len. Qed.
Lemma users_len c s ms i b bi l own x s1 s2 n : users i -> relayed i = Some n -> wf_instr i ->
  handle_all e px ms i [MLogger; MReferral referral_id; MPda b bi] (mkCtx s l [] [] []) = Ok x ->
  call_dex_as e px c s1 ms (x_accts x) own (x_seeds x) i = Ok s2 -> (n <= length l)%nat.
Proof.
  intros US RL WF H C. assert (PR : process e c s1 i (merge (x_accts x)) = Ok s2).
  { unfold call_dex_as in C. peel C. peel C. unfold process_bytes in C. rewrite (pack_unpack _ WF) in C. exact C. }
  assert (NL : forall j a, nth_error l j = Some a -> (j < length l)%nat) by (intros j a Q; apply nth_error_Some; congruence).
  cbn [handle_all] in H. peel H. peel H. peel H.
  assert (EX : v1 = x) by congruence. subst v1.
  destruct i; cbn [users relayed] in *; try contradiction; injection RL as <-; cbn [handle] in E, E0, E1; injection E as <-; cbn [process] in PR.
  - (* settle *) unfold ref_settle in E0. cbn [x_accts] in E0. peel E0. apply at_nth in E. apply NL in E. lia.
  - (* order *) injection E0 as <-. unfold pda_order in E1. cbn [x_accts x_store x_seeds x_pre x_post] in E1. do 6 peel E1. injection E1 as <-. apply len_order in PR. cbn [x_accts] in PR. rewrite merge_len, set_nth_len in PR. exact PR.
  - (* cancel *) injection E0 as <-. apply len_cancel in PR. rewrite (sign_len _ _ _ _ _ _ E1) in PR. exact PR.
  - injection E0 as <-. unfold proc_cancel_cid in PR. peel PR. apply len_cancel in PR. rewrite (sign_len _ _ _ _ _ _ E1) in PR. exact PR.
  - (* close *) injection E0 as <-. apply len_close in PR. rewrite (sign_len _ _ _ _ _ _ E1) in PR. exact PR.
  - (* init *) injection E0 as <-. unfold pda_init in E1. cbn [x_accts x_store x_seeds x_pre x_post] in E1. peel E1. apply at_nth in E. apply NL in E. lia.
Qed.
Inductive kind (c : clock) (s : store) (ms : list meta) (data : bytes) (s' : store) : Prop :=
| k_none : s' = s -> (forall i, ~ asks data i) -> shows_token ms -> kind c s ms data s'
| k_user i : asks data i -> users i -> shows_token ms -> run e px c example_mws s (without_token ms) data = Ok s' -> kind c s ms data s'
| k_crank n : asks data (IConsumeEvents n) -> run e px c example_mws s ms data = Ok s' -> kind c s ms data s'
| k_prune n k a b : asks data (IPrune n) -> wf_instr (IPrune n) -> ~ shows_token ms -> key_at ms 2 = Some k -> key_at ms 5 = Some a -> nth_error ms 6 = Some b ->
    (signed_by ms a \/ prune k = Some a) -> process e c s (IPrune n) (merge (set_nth 5 b (set_nth 3 (mkMeta a true) (skipn 2 ms)))) = Ok s' ->
    keeper_signs ms (set_nth 5 b (set_nth 3 (mkMeta a true) (skipn 2 ms))) -> kind c s ms data s'
| k_perm n k a l l1 : asks data (IConsumePermissioned n) -> wf_instr (IConsumePermissioned n) -> ~ shows_token ms -> skipn 2 ms = l ++ [k; l1; a] ->
    (signed_by ms (mk a) \/ prune (mk k) = Some (mk a)) -> process e c s (IConsumePermissioned n) (merge (l ++ [k; l1; mkMeta (mk a) true])) = Ok s' ->
    keeper_signs ms (l ++ [k; l1; mkMeta (mk a) true]) -> kind c s ms data s'.
Lemma token_inv acc l : with_token acc = Ok l -> exists tok, acc = tok :: l /\ mk tok = rent_id.
Proof.
  unfold with_token. intros H. peel H. peel H. apply check_ok in E0. apply at_nth in E. destruct acc as [|t acc]; [discriminate|]. cbn [nth_error] in E. injection E as ->. injection H as <-. exists v. split; [reflexivity|lia].
Qed.
Lemma revoked_inv acc l : with_revoked acc = Ok l -> exists tok, acc = tok :: l /\ mk tok <> rent_id.
Proof.
  unfold with_revoked. intros H. peel H. peel H. apply check_ok in E0. apply at_nth in E. destruct acc as [|t acc]; [discriminate|]. cbn [nth_error] in E. injection E as ->. injection H as <-. exists v. split; [reflexivity|lia].
Qed.
Lemma ends3 {A} (l : list A) k a : (3 <= length l)%nat -> nth_error l (length l - 3) = Some k -> nth_error l (length l - 1) = Some a -> exists l0 b, l = l0 ++ [k; b; a].
Proof.
  intros LE N1 N2. destruct (rev l) as [|z [|y [|w r]]] eqn:R; apply (f_equal (@rev A)) in R; rewrite rev_involutive in R; cbn [rev app] in R; subst l; rewrite ?app_length in LE; cbn [length app] in LE; try lia.
  rewrite <- !app_assoc in *. cbn [app] in *. rewrite app_length in N1, N2. cbn [length] in N1, N2. replace (length (rev r) + 3 - 3)%nat with (length (rev r) + 0)%nat in N1 by lia. replace (length (rev r) + 3 - 1)%nat with (length (rev r) + 2)%nat in N2 by lia.
  rewrite nth_error_app2 in N1, N2 by lia. replace (length (rev r) + 0 - length (rev r))%nat with 0%nat in N1 by lia. replace (length (rev r) + 2 - length (rev r))%nat with 2%nat in N2 by lia. cbn [nth_error] in N1, N2. injection N1 as ->. injection N2 as ->. exists (rev r), y. reflexivity.
Qed.
Lemma set_last {A} (l : list A) k b a a' : set_nth (length (l ++ [k; b; a]) - 1) a' (l ++ [k; b; a]) = l ++ [k; b; a'].
Proof.
  rewrite app_length. cbn [length]. replace (length l + 3 - 1)%nat with (length l + 2)%nat by lia. unfold set_nth. rewrite firstn_app, skipn_app.
  replace (length l + 2 - length l)%nat with 2%nat by lia. rewrite firstn_all2, skipn_all2 by lia. cbn [firstn skipn app]. rewrite <- app_assoc. reflexivity.
Qed.
Lemma entry_kind c s ms data s' : (forall a, In a ms -> mk a = rent_id -> mk_signer a = false) -> is_bytes data -> entry e px prune c s ms data = Ok s' -> kind c s ms data s'.
Proof.
  intros NR HB H. unfold entry in H. destruct ms as [|d acc]; [discriminate|]. peel H. pose proof E as ED. apply check_ok in E. fold example_mws in H. peel H. destruct v0 as [mws dd]. destruct (example_instruct _ _ _ E0) as (-> & b & bi & EM).
  destruct (unpack (payload data)) as [i|] eqn:U.
  2:{ peel H. apply token_inv in E1. destruct E1 as (tok & -> & ET). apply k_none; [congruence|intros i (X & _); congruence|unfold shows_token, key_at; cbn [nth_error option_map]; congruence]. }
  assert (WF : wf_instr i) by exact (proj1 (unpack_pack _ _ (payload_bytes _ HB) U)).
  destruct (relayed i) as [n|] eqn:RL.
  2:{ peel H. apply token_inv in E1. destruct E1 as (tok & -> & ET). apply k_none; [congruence|intros j (X & Y); congruence|unfold shows_token, key_at; cbn [nth_error option_map]; congruence]. }
  assert (AK : asks data i) by (split; [exact U|congruence]).
  peel H. pose proof E1 as LE. apply check_ok in LE. peel H. destruct v1 as [l own]. peel H. peel H. peel H.
  assert (US : users i -> kind c s (d :: acc) data s').
  { intros US. assert (ID : with_token acc = Ok l /\ own = []) by (destruct i; cbn [users] in US; try contradiction; cbn [identity] in E2; peel E2; injection E2 as <- <-; auto).
    destruct ID as (WT & ->). destruct (token_inv _ _ WT) as (tok & -> & ET). subst mws.
    pose proof (users_len c s _ i b bi l [] _ _ _ n US RL WF E3 E5) as LN.
    apply (k_user _ _ _ _ _ i AK US); [unfold shows_token, key_at; cbn [nth_error option_map]; congruence|]. cbn [without_token].
    rewrite <- (entry_is_run c s d tok l data i n ET (NR tok ltac:(right; left; reflexivity) ET) AK US RL LN).
    unfold entry. rewrite ED. cbn [rbind]. fold example_mws. rewrite E0. cbn [rbind]. rewrite U, RL, E1. cbn [rbind]. rewrite E2. cbn [rbind]. rewrite E3. cbn [rbind]. rewrite E4. cbn [rbind]. rewrite E5. cbn [rbind]. exact H. }
  destruct i; cbn [relayed] in RL; try discriminate; try (apply US; exact I); clear US; subst mws.
  - (* anyone's crank *) cbn [identity] in E2. injection E2 as <- <-. apply (k_crank _ _ _ _ _ limit AK).
    unfold run. rewrite ED. cbn [rbind]. rewrite E0. cbn [rbind]. rewrite U. cbn [relayed]. injection RL as <-. rewrite E1. cbn [rbind]. rewrite E3. cbn [rbind]. rewrite E4. cbn [rbind].
    rewrite <- (same_dex e px _ _ (fun k => eq_refl)), E5. cbn [rbind]. exact H.
  - (* prune *) cbn [identity] in E2. peel E2. peel E2. peel E2. peel E2. injection E2 as <- <-. destruct (revoked_inv _ _ E6) as (tok & -> & NT). apply at_nth in E7, E9.
    cbn [handle_all handle] in E3. cbn [rbind] in E3. unfold pda_prune in E3. cbn [x_accts x_store x_seeds x_pre x_post] in E3. peel E3. injection E3 as <-. peel E2. peel E2. apply at_nth in E3, E10. injection E2 as <-. cbn [x_accts x_store x_seeds x_pre x_post call_tokens] in *.
    injection E4 as <-. injection H as <-. destruct (called_as _ _ _ _ _ _ _ WF E5) as [PR SG]. rewrite set_nth_other in E3 by discriminate.
    assert (EP : prune (mk v5) = Some v6) by (destruct (prune (mk v5)); cbn [unwrap] in E8; congruence).
    assert (SB : signed_by (d :: tok :: v4) (mk v7) \/ prune (mk v5) = Some (mk v7)).
    { destruct (SG (mk v7)) as [X|[X|[]]]; [|left; exact X|right; congruence]. exists (mkMeta (mk v7) true). split; [|split; reflexivity]. apply (nth_error_In _ 3). rewrite set_nth_other by discriminate. apply set_nth_at. apply nth_error_Some. congruence. }
    eapply (k_prune _ _ _ _ _ limit (mk v5) (mk v7) v1 AK WF); [unfold shows_token, key_at; cbn [nth_error option_map]; congruence| | | |exact SB|exact PR|].
    + unfold key_at. destruct v4; [discriminate|]. cbn [nth_error] in E7 |- *. rewrite E7. reflexivity.
    + unfold key_at. change (nth_error (d :: tok :: v4) 5) with (nth_error v4 3). rewrite E9. reflexivity.
    + exact E3.
    + intros w SW. destruct (SG w SW) as [X|[X|[]]]; [left; exact X|right; exists (mk v5); congruence].
  - (* permissioned crank *) cbn [identity] in E2. peel E2. peel E2. peel E2. peel E2. peel E2. injection E2 as <- <-. destruct (revoked_inv _ _ E6) as (tok & -> & NT). apply at_nth in E8, E10.
    assert (L3 : (3 <= length v4)%nat) by (unfold passert in E7; destruct (3 <=? length v4)%nat eqn:Q; [apply Nat.leb_le; exact Q|discriminate]).
    destruct (ends3 v4 _ _ L3 E8 E10) as (l0 & l1 & EL). rewrite EL, set_last in E3.
    cbn [handle_all handle] in E3. cbn [rbind] in E3. injection E3 as <-. cbn [x_accts x_store x_seeds x_pre x_post call_tokens] in *. injection E4 as <-. injection H as <-.
    destruct (called_as _ _ _ _ _ _ _ WF E5) as [PR SG]. assert (EP : prune (mk v6) = Some v7) by (destruct (prune (mk v6)); cbn [unwrap] in E9; congruence).
    eapply (k_perm _ _ _ _ _ limit v6 v8 l0 l1 AK WF); [unfold shows_token, key_at; cbn [nth_error option_map]; congruence|exact EL| |exact PR|].
    + destruct (SG (mk v8)) as [X|[X|[]]]; [|left; exact X|right; congruence]. exists (mkMeta (mk v8) true). split; [apply in_or_app; right; right; right; left; reflexivity|split; reflexivity].
    + intros w SW. destruct (SG w SW) as [X|[X|[]]]; [left; exact X|right; exists (mk v6); congruence].
Qed.
End Perm.
