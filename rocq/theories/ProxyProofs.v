(** What a call through the proxy does. *)
From Verif Require Import Base BaseProofs Fees ListSum Queue Codec Critbit Market Slots Matching Core Instr InstrProofs Store Process StoreProofs World WorldInv WorldLoad WorldRun WorldSpec WorldAuth WorldRights Proxy ProxySpec ProxyAmounts.

(** ** Decoding *)
Definition bumps (mws : list mw) (data : bytes) (b bi : Z) : Prop :=
  match data with
  | 0 :: b1 :: bi1 :: _ => b = b1 /\ bi = bi1
  | _ => In (MPda b bi) mws
  end.
Lemma instruct_other l data l' d : Forall not_pda l -> instruct l data = Ok (l', d) -> l' = l /\ d = data.
Proof.
  revert data l' d. induction l as [|m r IH]; intros data l' d F H; cbn [instruct] in H; [injection H as <- <-; auto|].
  inversion F as [|? ? N FR]; subst. destruct m; [destruct N| |]; cbn [mw_instruction rbind] in H; peel H; destruct v as [r' d2]; injection H as <- <-; destruct (IH _ _ _ FR E) as [-> ->]; auto.
Qed.
Lemma instruct_guarded l b bi r data mws' d : Forall not_pda l -> Forall not_pda r -> instruct (l ++ MPda b bi :: r) data = Ok (mws', d) ->
  exists b' bi', mws' = l ++ MPda b' bi' :: r /\ d = payload data /\ bumps (l ++ MPda b bi :: r) data b' bi'.
Proof.
  intros FL FR. revert data mws' d. induction l as [|m l IH]; intros data mws' d H; cbn [app instruct] in H.
  - peel H. destruct v as [m' d1]. peel H. destruct v as [r' d2]. assert (EQ : m' :: r' = mws' /\ d2 = d) by (clear - H; injection H as H1 H2; auto). destruct EQ as [<- <-]. clear H.
    apply (instruct_other _ _ _ _ FR) in E0. destruct E0 as [-> ->]. cbn [app]. unfold mw_instruction in E. destruct data as [|x data]; [discriminate|].
    destruct (Z.eqb_spec x 0) as [->|NX].
    + destruct data as [|b' [|bi' data]]; try discriminate. assert (EQ : m' = MPda b' bi' /\ d1 = data) by (split; congruence). destruct EQ as [-> ->]. exists b', bi'. cbn [payload bumps]. auto.
    + assert (EQ : m' = MPda b bi /\ d1 = data) by (split; congruence). destruct EQ as [-> ->]. exists b, bi. destruct x; [congruence| |]; cbn [payload bumps In]; auto.
  - inversion FL as [|? ? N FL']; subst. destruct m; [destruct N| |]; cbn [mw_instruction rbind] in H; peel H; destruct v as [r' d2].
    + assert (EQ : mws' = MLogger :: r' /\ d = d2) by (split; congruence). destruct EQ as [-> ->]. destruct (IH FL' _ _ _ E) as (b' & bi' & -> & -> & B). exists b', bi'. cbn [app]. split; [reflexivity|]. split; [reflexivity|].
      unfold bumps in *. destruct data as [|[| |] [|? [|? ?]]]; cbn [In]; auto.
    + assert (EQ : mws' = MReferral r0 :: r' /\ d = d2) by (split; congruence). destruct EQ as [-> ->]. destruct (IH FL' _ _ _ E) as (b' & bi' & -> & -> & B). exists b', bi'. cbn [app]. split; [reflexivity|]. split; [reflexivity|].
      unfold bumps in *. destruct data as [|[| |] [|? [|? ?]]]; cbn [In]; auto.
Qed.
Lemma payload_bytes data : is_bytes data -> is_bytes (payload data).
Proof.
  intros H. unfold payload. destruct data as [|[| |] r]; [constructor| | |]; inversion H as [|? ? ? T]; subst; [|exact T|exact T].
  destruct r as [|? [|? r]]; [exact T|exact T|]. inversion T as [|? ? ? T1]; subst. inversion T1; subst. assumption.
Qed.

Section Calls.
Variable e : env.
Variable px : pxenv.
Definition referral_passed (px : pxenv) (s : store) (acc : list meta) (r : Z) : Prop := exists a, nth_error acc 9 = Some a /\ authority_of px (sget s (mk a)) = r.
Lemma handle_others ms i l x x' : Forall not_pda l -> handle_all e px ms i l x = Ok x' ->
  x' = x /\ (i = ISettleFunds -> forall r, In (MReferral r) l -> referral_passed px (x_store x) (x_accts x) r).
Proof.
  revert x. induction l as [|m l IH]; intros x F H; cbn [handle_all] in H; [injection H as <-; split; [reflexivity|intros _ r []]|].
  inversion F as [|? ? N FL]; subst. peel H. destruct m; [destruct N| |].
  - cbn [handle] in E. assert (v = x) by (destruct i; congruence). subst v. destruct (IH _ FL H) as [-> R]. split; [reflexivity|]. intros EI r [Q|Q]; [discriminate|auto].
  - cbn [handle] in E. assert (EQ : v = x /\ (i = ISettleFunds -> ref_settle px r x = Ok x)).
    { destruct i; try (split; [congruence|discriminate]). unfold ref_settle in E. pose proof E as E'. peel E'. peel E'. split; [congruence|]. intros _. unfold ref_settle. rewrite E in *. congruence. }
    destruct EQ as [-> Q]. destruct (IH _ FL H) as [-> R]. split; [reflexivity|]. intros EI r1 [Q1|Q1]; [|auto]. injection Q1 as ->. specialize (Q EI). unfold ref_settle in Q. peel Q. peel Q.
    apply check_ok in E1. unfold at_, unwrap in E0. destruct (nth_error (x_accts x) 9) eqn:N9; [|discriminate]. exists m. split; [assumption|]. assert (v = m) by congruence. subst v. lia.
Qed.
Lemma handle_app ms i l r x x' : handle_all e px ms i (l ++ r) x = Ok x' -> exists x1, handle_all e px ms i l x = Ok x1 /\ handle_all e px ms i r x1 = Ok x'.
Proof.
  revert x. induction l as [|m l IH]; intros x H; cbn [app handle_all] in *; [eauto|]. peel H. destruct (IH _ H) as (x1 & H1 & H2). exists x1. rewrite E. cbn [rbind]. auto.
Qed.

(** ** Who signs *)
Lemma at_nth l i a : at_ l i = Ok a -> nth_error l i = Some a.
Proof. unfold at_, unwrap. destruct (nth_error l i); congruence. Qed.
Lemma set_nth_in {A} i (a : A) l y : In y (set_nth i a l) -> y = a \/ In y l.
Proof.
  unfold set_nth. intros H. apply in_app_or in H. destruct H as [H|H]; [right; rewrite <- (firstn_skipn i l); apply in_or_app; left; exact H|]. destruct (skipn i l) as [|z r] eqn:E; [destruct H|]. destruct H as [H|H]; [left; congruence|].
  right. rewrite <- (firstn_skipn i l), E. apply in_or_app. right. right. exact H.
Qed.
Lemma set_nth_at {A} i (a : A) l : (i < length l)%nat -> nth_error (set_nth i a l) i = Some a.
Proof.
  revert i. induction l as [|z l IH]; intros i H; [cbn [length] in H; lia|]. destruct i; [reflexivity|]. cbn [length] in H. unfold set_nth. cbn [firstn skipn app nth_error]. apply IH. lia.
Qed.
Lemma set_nth_other {A} i j (a : A) l : i <> j -> nth_error (set_nth i a l) j = nth_error l j.
Proof.
  revert i j. induction l as [|z l IH]; intros i j H; [unfold set_nth; destruct i, j; reflexivity|]. destruct i.
  - destruct j; [congruence|]. reflexivity.
  - destruct j; [reflexivity|]. unfold set_nth. cbn [firstn skipn app nth_error]. apply IH. congruence.
Qed.
Definition good_seed (ms : list meta) (i : instr) (sd : seed) : Prop :=
  match sd with SOpen k u b => signed_by ms u /\ In k (map mk ms) /\ (b = px_bump px k u \/ i = IInitOO) | SInit _ _ => i = IInitOO end.
Lemma in_acc (d : meta) acc ms (i : nat) (a : meta) : ms = d :: acc -> nth_error acc i = Some a -> In a ms.
Proof. intros -> H. right. eapply nth_error_In. exact H. Qed.
Ltac fromacc := match goal with EM : ?ms = ?d :: ?acc, N : nth_error ?acc _ = Some ?a |- _ => pose proof (in_acc d acc ms _ a EM N) end.
Lemma sign_seeds ms acc d mi ui oi s x i : ms = d :: acc -> pda_sign px mi ui oi (mkCtx s acc [] [] []) = Ok x ->
  exists mkt user oo, nth_error acc mi = Some mkt /\ nth_error acc ui = Some user /\ mk_signer user = true /\ nth_error acc oi = Some oo /\
    x = mkCtx s (set_nth ui (mkMeta (mk oo) true) acc) [SOpen (mk mkt) (mk user) (px_bump px (mk mkt) (mk user))] [] [] /\
    Forall (good_seed ms i) (x_seeds x).
Proof.
  intros EM H. unfold pda_sign in H. cbn [x_accts x_store x_seeds x_pre x_post app] in H. do 4 peel H. apply at_nth in E, E0, E2. apply check_ok in E1. exists v, v0, v2.
  split; [assumption|]. split; [assumption|]. split; [assumption|]. split; [assumption|]. assert (EX : x = mkCtx s (set_nth ui (mkMeta (mk v2) true) acc) [SOpen (mk v) (mk v0) (px_bump px (mk v) (mk v0))] [] []) by congruence.
  split; [exact EX|]. rewrite EX. cbn [x_seeds]. constructor; [|constructor]. cbn [good_seed]. split; [|split; [|auto]].
  - exists v0. split; [eapply in_acc; eassumption|auto].
  - apply in_map. eapply in_acc; eassumption.
Qed.
Lemma order_seeds ms acc d s x ix i : ms = d :: acc -> pda_order px ix (mkCtx s acc [] [] []) = Ok x ->
  exists mkt oo payer user amt, nth_error acc 0 = Some mkt /\ nth_error acc 1 = Some oo /\ nth_error acc 6 = Some payer /\ nth_error acc 7 = Some user /\ mk_signer user = true /\
    match oi_side ix with Bid => amt = oi_pc ix | Ask => cmul (oi_qty ix) (lot_of px (sget s (mk mkt))) = Ok amt end /\
    x = mkCtx s (set_nth 7 (mkMeta (mk oo) true) acc) [SOpen (mk mkt) (mk user) (px_bump px (mk mkt) (mk user))]
          [TApprove (mk payer) (mk oo) (mk user) amt] [TRevoke (mk payer) (mk user)] /\ Forall (good_seed ms i) (x_seeds x).
Proof.
  intros EM H. unfold pda_order in H. cbn [x_accts x_store x_seeds x_pre x_post app] in H. do 6 peel H. apply at_nth in E, E1, E2, E3. apply check_ok in E0. exists v1, v2, v3, v, v4.
  split; [assumption|]. split; [assumption|]. split; [assumption|]. split; [assumption|]. split; [assumption|]. split; [destruct (oi_side ix); congruence|].
  match goal with HH : Ok ?z = Ok x |- _ => assert (EX : x = z) by congruence end.
  split; [exact EX|]. rewrite EX. cbn [x_seeds]. constructor; [|constructor]. cbn [good_seed]. split; [|split; [|auto]].
  - exists v. split; [eapply in_acc; eassumption|auto].
  - apply in_map. eapply in_acc; eassumption.
Qed.
(** ** One call *)
Record went (c : clock) (mws : list mw) (s : store) (ms : list meta) (data : bytes) (s' : store) (i : instr) (acc : list meta) (b bi : Z) (x : ctx) (s1 s2 : store) : Prop := mkWent {
  wt_ask : asks data i; wt_wf : is_bytes data -> wf_instr i;
  wt_acc : exists d, ms = d :: acc /\ mk d = e_prog e;
  wt_bump : bumps mws data b bi;
  wt_hand : handle e px ms i (MPda b bi) (mkCtx s acc [] [] []) = Ok x;
  wt_ref : i = ISettleFunds -> forall r, In (MReferral r) mws -> referral_passed px s acc r;
  wt_pre : call_tokens (x_store x) ms (x_pre x) = Ok s1;
  wt_dex : call_dex e px c s1 ms (x_accts x) (x_seeds x) i = Ok s2;
  wt_post : call_tokens s2 ms (x_post x) = Ok s' }.
Lemma run_went c mws s ms data s' : guarded mws -> run e px c mws s ms data = Ok s' ->
  (s' = s /\ forall i, ~ asks data i) \/ exists i acc b bi x s1 s2, went c mws s ms data s' i acc b bi x s1 s2.
Proof.
  intros (l & b0 & bi0 & r & EM & FL & FR) H. unfold run in H. destruct ms as [|d acc]; [discriminate|]. peel H. apply check_ok in E. peel H. destruct v0 as [mws1 dd].
  rewrite EM in E0. destruct (instruct_guarded _ _ _ _ _ _ _ FL FR E0) as (b & bi & -> & -> & B).
  destruct (unpack (payload data)) as [i|] eqn:U.
  2:{ left. split; [congruence|]. intros i (HU & _). congruence. }
  destruct (relayed i) as [n|] eqn:RL.
  2:{ left. split; [congruence|]. intros j (HU & HR). congruence. }
  right. peel H. apply check_ok in E1. peel H. peel H. peel H.
  destruct (handle_app _ _ _ _ _ _ E2) as (x1 & H1 & H2). destruct (handle_others _ _ _ _ _ FL H1) as [-> R1]. cbn [handle_all] in H2. peel H2.
  destruct (handle_others _ _ _ _ _ FR H2) as [EX R2]. subst v1. exists i, acc, b, bi, v4, v2, v3. constructor; try assumption.
  - split; [assumption|congruence].
  - intros HB. exact (proj1 (unpack_pack _ _ (payload_bytes _ HB) U)).
  - exists d. split; [reflexivity|lia].
  - rewrite EM. assumption.
  - intros EI rr IN. rewrite EM in IN. apply in_app_or in IN. destruct IN as [IN|[IN|IN]]; [exact (R1 EI _ IN)|discriminate|].
    specialize (R2 EI _ IN). destruct R2 as (a & N9 & AU). subst i. cbn [handle] in E5.
    destruct (sign_seeds (d :: acc) acc d 0 2 1 s v4 ISettleFunds eq_refl E5) as (? & ? & ? & _ & _ & _ & _ & EX & _). rewrite EX in N9, AU. cbn [x_accts x_store] in N9, AU.
    rewrite set_nth_other in N9 by discriminate. exists a. auto.
Qed.

(** ** The runtime's call *)
Lemma signed_in_by ms k : signed_in ms k = true <-> signed_by ms k.
Proof.
  unfold signed_in, signed_by. rewrite existsb_exists. split; intros (a & I & H); exists a; [split; [exact I|split; [lia|]]; destruct (mk_signer a); [reflexivity|lia]|].
  destruct H as [<- ->]. split; [exact I|]. lia.
Qed.
Lemma merge_keys ms : map mk (merge ms) = map mk ms.
Proof. unfold merge. rewrite map_map. reflexivity. Qed.
Lemma merge_signed ms w : signed_by (merge ms) w -> signed_by ms w.
Proof. intros (a & I & <- & S). unfold merge in I. apply in_map_iff in I. destruct I as (a' & <- & I). cbn [mk mk_signer] in *. apply signed_in_by. exact S. Qed.
Lemma merge_le ms : metas_le ms (merge ms).
Proof.
  unfold merge. assert (G : forall l, incl l ms -> Forall2 meta_le l (map (fun a => mkMeta (mk a) (signed_in ms (mk a))) l)); [|apply G, incl_refl].
  induction l as [|a l IH]; intros I; cbn [map]; constructor; [|apply IH; intros y HY; apply I; right; exact HY]. split; [reflexivity|]. cbn [mk_signer]. intros S. apply signed_in_by. exists a. split; [apply I; left; reflexivity|auto].
Qed.
Lemma seed_keys_in l ks : seed_keys px l = Some ks -> forall p, In p ks <-> exists sd, In sd l /\ seed_key px sd = Some p.
Proof.
  revert ks. induction l as [|sd l IH]; intros ks H p; cbn [seed_keys] in H.
  - injection H as <-. cbn [In]. firstorder.
  - destruct (seed_key px sd) as [k|] eqn:E; [|discriminate]. destruct (seed_keys px l) as [r|]; [|discriminate]. injection H as <-. cbn [In]. rewrite (IH r eq_refl p). split.
    + intros [->|(sd' & I & E')]; [exists sd; auto|exists sd'; auto].
    + intros (sd' & [->|I] & E'); [left; congruence|right; exists sd'; auto].
Qed.
Lemma dex_called c s ms accts seeds i s' : wf_instr i -> call_dex e px c s ms accts seeds i = Ok s' ->
  process e c s i (merge accts) = Ok s' /\ (forall w, signed_by accts w -> signed_by ms w \/ exists sd, In sd seeds /\ seed_key px sd = Some w).
Proof.
  intros WF H. unfold call_dex in H. peel H. peel H. unfold process_bytes in H. rewrite (pack_unpack _ WF) in H. cbn [ok_or rbind] in H. split; [exact H|].
  intros w (a & I & <- & S). apply check_ok in E0. rewrite forallb_forall in E0. specialize (E0 a I). unfold may_sign in E0. rewrite S in E0. cbn [negb orb] in E0.
  destruct (signed_in ms (mk a)) eqn:SI; [left; apply signed_in_by; exact SI|]. right. cbn [orb] in E0. apply existsb_exists in E0. destruct E0 as (p & IP & EP). assert (EQ : mk a = p) by lia. rewrite EQ.
  destruct (seed_keys px seeds) as [ks|] eqn:SK; [|discriminate]. assert (ks = v) by (cbn [ok_or] in E; congruence). subst v. apply (seed_keys_in _ _ SK). exact IP.
Qed.


(** ** What the handler leaves for the dex *)
Lemma in_set_nth_keys i a l ms : In (mk a) (map mk ms) -> incl (map mk l) (map mk ms) -> incl (map mk (set_nth i a l)) (map mk ms).
Proof. intros HA HL y HY. apply in_map_iff in HY. destruct HY as (m & <- & IM). apply set_nth_in in IM. destruct IM as [->|IM]; [exact HA|apply HL, in_map, IM]. Qed.
Lemma init_inv ms acc d b bi s x : ms = d :: acc -> pda_init e px ms b bi (mkCtx s acc [] [] []) = Ok x ->
  exists dexp sys oo user mkt rent auth rest need, acc = dexp :: sys :: oo :: user :: mkt :: rent :: auth :: rest /\
    px_open px (mk mkt) (mk user) b = Some (mk oo) /\ px_init px (mk mkt) bi = Some (mk auth) /\ mk_signer user = true /\
    a_prog (sget s (mk oo)) = 0 /\ a_prog (sget s (mk user)) = 0 /\
    x = mkCtx (sput (put_lamports s (mk user) (a_lamports (sget s (mk user)) - need)) (mk oo) (mkAccount (e_prog e) (a_lamports (sget s (mk oo)) + need) OO_LEN DZero))
          (oo :: mkMeta (mk oo) true :: mkt :: rent :: mkMeta (mk auth) true :: rest) [SOpen (mk mkt) (mk user) b; SInit (mk mkt) bi] [] [].
Proof.
  intros EM H. unfold pda_init in H. cbn [x_accts x_store x_seeds x_pre x_post app] in H. do 3 peel H. unfold create_oo in E1.
  destruct acc as [|dexp [|sys [|oo [|user [|mkt [|rent [|auth rest]]]]]]]; try discriminate. do 8 peel E1. cbv zeta in E1.
  apply check_ok in E2, E3, E4, E5, E6, E7, E8, E9. apply at_nth in E, E0. cbn [nth_error] in E, E0. assert (v = mkt) by congruence. assert (v0 = user) by congruence. subst v v0.
  exists dexp, sys, oo, user, mkt, rent, auth, rest, (Z.max 0 (Z.max 1 (px_rent px) - a_lamports (sget s (mk oo)))).
  destruct (px_open px (mk mkt) (mk user) b) as [k1|] eqn:P1; [|discriminate]. destruct (px_init px (mk mkt) bi) as [k2|] eqn:P2; [|discriminate].
  split; [reflexivity|]. split; [f_equal; lia|]. split; [f_equal; lia|]. split; [assumption|]. split; [lia|]. split; [lia|].
  cbn [skipn] in H. unfold at_, unwrap in H. cbn [nth_error rbind] in H. cbn [set_nth firstn skipn app] in H. congruence.
Qed.
Definition created (s s1 : store) : Prop := exists k u b p lam a, address_of px k u p /\ px_open px k u b = Some p /\ a_prog (sget s p) = 0 /\ a_data a = DZero /\ a_prog a = e_prog e /\ a_len a = OO_LEN /\
  s1 = sput (put_lamports s u lam) p a.
Lemma handle_facts ms acc d s i b bi x : ms = d :: acc -> handle e px ms i (MPda b bi) (mkCtx s acc [] [] []) = Ok x ->
  incl (map mk (x_accts x)) (map mk ms) /\ Forall (good_seed ms i) (x_seeds x) /\ (x_store x = s \/ (i = IInitOO /\ created s (x_store x))).
Proof.
  intros EM H. assert (IA : incl (map mk acc) (map mk ms)) by (rewrite EM; cbn [map]; apply incl_tl, incl_refl).
  assert (SG : forall mi ui oi, pda_sign px mi ui oi (mkCtx s acc [] [] []) = Ok x -> incl (map mk (x_accts x)) (map mk ms) /\ Forall (good_seed ms i) (x_seeds x) /\ (x_store x = s \/ (i = IInitOO /\ created s (x_store x)))).
  { intros mi ui oi HS. destruct (sign_seeds ms acc d mi ui oi s x i EM HS) as (mkt & user & oo & N1 & N2 & _ & N3 & EX & G). split; [|split; [exact G|left; rewrite EX; reflexivity]].
    rewrite EX. cbn [x_accts]. apply in_set_nth_keys; [cbn [mk]; apply IA, in_map; eapply nth_error_In; exact N3|exact IA]. }
  assert (ID : x = mkCtx s acc [] [] [] -> incl (map mk (x_accts x)) (map mk ms) /\ Forall (good_seed ms i) (x_seeds x) /\ (x_store x = s \/ (i = IInitOO /\ created s (x_store x)))).
  { intros ->. cbn [x_accts x_seeds x_store]. auto. }
  destruct i; cbn [handle] in H; try (apply ID; congruence); try (eapply SG; exact H).
  - destruct (order_seeds ms acc d s x ix (INewOrderV3 ix) EM H) as (mkt & oo & payer & user & amt & N1 & N2 & N3 & N4 & _ & _ & EX & G). split; [|split; [exact G|left; rewrite EX; reflexivity]].
    rewrite EX. cbn [x_accts]. apply in_set_nth_keys; [cbn [mk]; apply IA, in_map; eapply nth_error_In; exact N2|exact IA].
  - destruct (init_inv ms acc d b bi s x EM H) as (dexp & sys & oo & user & mkt & rent & auth & rest & need & EA & P1 & P2 & SG1 & A1 & A2 & EX). rewrite EX. cbn [x_accts x_seeds x_store map mk].
    assert (IN : incl [mk oo; mk user; mk mkt; mk rent; mk auth] (map mk ms)) by (intros y HY; apply IA; rewrite EA; cbn [map In] in *; tauto).
    split; [|split; [|right; split; [reflexivity|]]].
    + intros y HY. apply IA. rewrite EA. cbn [map In] in *. tauto.
    + constructor; [|constructor; [reflexivity|constructor]]. cbn [good_seed]. split; [exists user; split; [rewrite EM, EA; cbn [In]; auto 10|auto]|]. split; [apply IN; cbn [In]; auto|auto].
    + unfold created. do 6 eexists. split; [exists b; exact P1|]. split; [exact P1|]. split; [exact A1|]. split; [|split; [|split; [|reflexivity]]]; reflexivity.
  - unfold pda_prune in H. cbn [x_accts x_store x_seeds x_pre x_post] in H. do 2 peel H. apply at_nth in E, E0. match goal with HH : Ok ?z = Ok x |- _ => assert (EX : x = z) by congruence end. rewrite EX.
    cbn [x_accts x_store x_seeds]. split; [|split; [constructor|auto]]. apply in_set_nth_keys; [apply IA, in_map; eapply nth_error_In; exact E|exact IA].
Qed.
End Calls.

(** ** Runs are histories *)
Inductive envs (e : env) (s : store) : store -> Prop :=
| envs_now : envs e s s
| envs_step s1 s2 : envs e s s1 -> rely e s1 s2 -> envs e s s2.
Lemma envs_trans e a b c : envs e a b -> envs e b c -> envs e a c.
Proof. intros H1 H2. induction H2; [exact H1|]. eapply envs_step; eassumption. Qed.
Lemma envs_later e s0 s s' : later e s0 s -> envs e s s' -> later e s0 s'.
Proof. intros L H. induction H; [exact L|]. eapply later_env; eassumption. Qed.
Lemma envs_reach e G s s' : reachable e G s -> envs e s s' -> reachable e G s'.
Proof. intros L H. induction H; [exact L|]. eapply reach_env; eassumption. Qed.
Lemma envs_amounts e s s' : amounts_ok s -> envs e s s' -> amounts_ok s'.
Proof. intros A H. destruct H; [exact A|]. exact (re_amt _ _ _ H0). Qed.

Section Rely.
Variable e : env.
Hypothesis EO : env_ok e.
Variable px : pxenv.
Hypothesis PO : px_ok e px.
Notation D := (dexd e).

Lemma tok_set_view s ms src owner d amt s' : tok_set s ms src owner d amt = Ok s' ->
  exists t, token_at s src = Some t /\ t_owner t = owner /\ t_state t = 1 /\ signed_by ms owner /\ (forall y, D s' y = D s y) /\
    (forall v, token_at s' v = if v =? src then Some (set_delegate t d amt) else token_at s v) /\ (forall y, a_len (sget s' y) = a_len (sget s y)) /\
    (forall y, y <> src -> sget s' y = sget s y) /\ (forall y, a_lamports (sget s' y) = a_lamports (sget s y)).
Proof.
  intros H. unfold tok_set in H. do 4 peel H. destruct (token_at s src) as [t|] eqn:T; [|discriminate]. assert (v = t) by (cbn [ok_or] in E; congruence). subst v.
  apply check_ok in E0, E1, E2. exists t. split; [reflexivity|]. split; [lia|]. split; [lia|]. split; [apply signed_in_by; exact E2|].
  match goal with HH : Ok ?z = Ok s' |- _ => assert (EX : s' = z) by congruence end. rewrite EX.
  split; [intros y; exact (dexd_put_token e (eo_spl _ EO) _ _ _ _ _ T)|]. split; [intros v; exact (token_put_token _ _ _ _ _ T)|]. split; [intros y; apply put_len|].
  split; [|intros; apply put_lam]. intros y NY. rewrite sget_put. replace (y =? src) with false by lia. reflexivity.
Qed.
Lemma tok_set_rely s ms src owner d amt s' : legal e ms -> amounts_ok s -> tok_set s ms src owner d amt = Ok s' -> rely e s s'.
Proof.
  intros LG AM H. destruct (tok_set_view _ _ _ _ _ _ _ H) as (t & T & OW & ST & (a & IA & EA & SA) & VD & VT & VL & _). constructor.
  - intros k. left. apply VD.
  - intros k t0 HT PD LK. exists t0. rewrite VT, VL. destruct (Z.eqb_spec k src) as [->|N].
    + exfalso. apply (LG a IA SA). rewrite EA, <- OW. assert (t0 = t) by congruence. subst t0. exact PD.
    + split; [exact HT|]. split; [reflexivity|]. split; [reflexivity|]. split; [exact LK|]. split; [lia|reflexivity].
  - intros k t0. rewrite VT. destruct (Z.eqb_spec k src) as [->|N]; [|apply AM]. intros [= <-]. cbn [set_delegate t_amount]. exact (AM _ _ T).
Qed.
Lemma call_tokens_envs ms l : legal e ms -> forall s s', amounts_ok s -> call_tokens s ms l = Ok s' -> envs e s s'.
Proof.
  intros LG. induction l as [|x l IH]; intros s s' AM H; cbn [call_tokens] in H; [injection H as <-; constructor|]. peel H.
  assert (R : rely e s v) by (destruct x; cbn [call_token] in E; eapply tok_set_rely; eassumption).
  eapply envs_trans; [eapply envs_step; [constructor|exact R]|]. apply IH; [exact (re_amt _ _ _ R)|exact H].
Qed.
Lemma call_tokens_D ms l : forall s s', call_tokens s ms l = Ok s' -> (forall y, D s' y = D s y) /\ (forall y, a_len (sget s' y) = a_len (sget s y)) /\ (forall y, a_lamports (sget s' y) = a_lamports (sget s y)).
Proof.
  induction l as [|x l IH]; intros s s' H; cbn [call_tokens] in H; [injection H as <-; auto|]. peel H. destruct (IH _ _ H) as (I1 & I2 & I3).
  assert (R : (forall y, D v y = D s y) /\ (forall y, a_len (sget v y) = a_len (sget s y)) /\ (forall y, a_lamports (sget v y) = a_lamports (sget s y))) by (destruct x; cbn [call_token] in E; destruct (tok_set_view _ _ _ _ _ _ _ E) as (t & _ & _ & _ & _ & VD & _ & VL & _ & VM); auto).
  destruct R as (R1 & R2 & R3). split; [|split]; intros; congruence.
Qed.
Lemma zero_spl : 0 <> spl_id. Proof. unfold spl_id. lia. Qed.
Lemma created_view s s1 : created e px s s1 -> exists p k u, address_of px k u p /\ D s p = None /\ (forall y, D s1 y = if y =? p then Some DZero else D s y) /\ same_tokens s s1 /\
  (forall y, a_len (sget s1 y) = if y =? p then OO_LEN else a_len (sget s y)).
Proof.
  intros (k & u & b & p & lam & a & AD & _ & P0 & AD0 & AP & AL & ->). exists p, k, u. split; [exact AD|]. pose proof (eo_sys _ EO). pose proof (eo_spl _ EO). pose proof zero_spl. split; [|split; [|split]].
  - unfold dexd. rewrite P0. replace (0 =? e_prog e) with false by lia. reflexivity.
  - intros y. unfold dexd. rewrite sget_sput. destruct (Z.eqb_spec y p) as [->|N]; [rewrite AP, Z.eqb_refl, AD0; reflexivity|]. rewrite sget_lam. destruct (Z.eqb_spec y u) as [->|]; reflexivity.
  - intros v. unfold token_at. rewrite sget_sput. destruct (Z.eqb_spec v p) as [->|N].
    + rewrite AP, P0. replace (e_prog e =? spl_id) with false by lia. replace (0 =? spl_id) with false by lia. reflexivity.
    + rewrite sget_lam. destruct (Z.eqb_spec v u) as [->|]; reflexivity.
  - intros y. rewrite sget_sput. destruct (Z.eqb_spec y p) as [->|N]; [exact AL|]. apply len_lam.
Qed.
Lemma created_rely s s1 : amounts_ok s -> created e px s s1 -> rely e s s1.
Proof.
  intros AM C. destruct (created_view _ _ C) as (p & k & u & AD & DP & VD & VT & VL). constructor.
  - intros y. rewrite VD. destruct (Z.eqb_spec y p) as [->|]; [|auto]. right. right. split; [reflexivity|]. split; [exact DP|]. exact (po_sys _ _ PO _ _ _ AD).
  - intros y t HT PD LK. exists t. rewrite VT, VL. destruct (Z.eqb_spec y p) as [->|N].
    + exfalso. destruct C as (k1 & u1 & b1 & p1 & lam & a & _ & _ & P0 & AD0 & AP & AL & ES). pose proof (VD p) as Q. rewrite Z.eqb_refl in Q. apply dexd_owned in Q. destruct Q as [Q _].
      rewrite <- VT in HT. apply token_at_inv in HT. destruct HT as [HT _]. pose proof (eo_spl _ EO). congruence.
    + split; [exact HT|]. split; [reflexivity|]. split; [reflexivity|]. split; [exact LK|]. split; [lia|reflexivity].
  - intros y t. rewrite VT. apply AM.
Qed.

Section Went.
Context {c : clock} {mws : list mw} {s : store} {ms : list meta} {data : bytes} {s' : store} {i : instr} {acc : list meta} {b bi : Z} {x : ctx} {s1 s2 : store}.
Hypothesis W : went e px c mws s ms data s' i acc b bi x s1 s2.
Hypothesis HB : is_bytes data.
Lemma wt_facts : incl (map mk (x_accts x)) (map mk ms) /\ Forall (good_seed px ms i) (x_seeds x) /\ (x_store x = s \/ (i = IInitOO /\ created e px s (x_store x))).
Proof. destruct W. destruct wt_acc0 as (d & EM & _). eapply handle_facts; eassumption. Qed.
Lemma wt_process : process e c s1 i (merge (x_accts x)) = Ok s2.
Proof. destruct W. exact (proj1 (dex_called _ _ _ _ _ _ _ _ _ (wt_wf0 HB) wt_dex0)). Qed.
Lemma wt_signed w : signed_by (merge (x_accts x)) w -> signed_by ms w \/ (exists k u b, px_open px k u b = Some w /\ signed_by ms u /\ In k (map mk ms) /\ (b = px_bump px k u \/ i = IInitOO)) \/ (i = IInitOO /\ exists k b, px_init px k b = Some w).
Proof.
  intros H. apply merge_signed in H. destruct W. destruct (proj2 (dex_called _ _ _ _ _ _ _ _ _ (wt_wf0 HB) wt_dex0) w H) as [?|(sd & I & E)]; [auto|]. right.
  destruct wt_facts as (_ & G & _). rewrite Forall_forall in G. specialize (G sd I). destruct sd as [k u b1|k b1]; cbn [good_seed seed_key] in *; [left|right; eauto]. exists k, u, b1. tauto.
Qed.
Lemma wt_envs1 : legal e ms -> amounts_ok s -> envs e s s1.
Proof.
  intros LG AM. destruct wt_facts as (_ & _ & [E|(_ & C)]).
  - destruct W. rewrite E in wt_pre0. eapply call_tokens_envs; eassumption.
  - pose proof (created_rely _ _ AM C) as R. eapply envs_trans; [eapply envs_step; [constructor|exact R]|]. destruct W. eapply call_tokens_envs; [exact LG|exact (re_amt _ _ _ R)|exact wt_pre0].
Qed.
Lemma wt_envs2 : legal e ms -> amounts_ok s -> envs e s2 s'.
Proof.
  intros LG AM. pose proof (envs_amounts _ _ _ AM (wt_envs1 LG AM)) as A1. pose proof (amt_process e EO _ _ _ _ _ wt_process A1) as A2. destruct W. eapply call_tokens_envs; eassumption.
Qed.
Lemma wt_D1 y : D s1 y = D s y \/ (i = IInitOO /\ D s y = None /\ D s1 y = Some DZero /\ exists k u, address_of px k u y).
Proof.
  destruct W. destruct (call_tokens_D _ _ _ _ wt_pre0) as (VD & _). destruct wt_facts as (_ & _ & [E|(EI & C)]); [left; rewrite VD, E; reflexivity|].
  destruct (created_view _ _ C) as (p & k & u & AD & DP & VC & _). rewrite VD, VC. destruct (Z.eqb_spec y p) as [->|]; [|auto]. right. eauto 10.
Qed.
Lemma wt_kept y d : D s y = Some d -> D s1 y = Some d.
Proof. intros H. destruct (wt_D1 y) as [->|(_ & Q & _)]; congruence. Qed.
Lemma wt_was y d : D s1 y = Some d -> d <> DZero -> D s y = Some d.
Proof. intros H N. destruct (wt_D1 y) as [Q|(_ & Q & Q' & _)]; congruence. Qed.
Lemma wt_D2 y : D s' y = D s2 y.
Proof. destruct W. apply (call_tokens_D _ _ _ _ wt_post0). Qed.
Lemma wt_transact : transact e c s1 (pack i) (merge (x_accts x)) = s2.
Proof. unfold transact, process_bytes. rewrite (pack_unpack _ (wt_wf _ _ _ _ _ _ _ _ _ _ _ _ _ _ _ W HB)). cbn [ok_or rbind]. rewrite wt_process. reflexivity. Qed.
Lemma wt_later s0 : legal e ms -> amounts_ok s -> later e s0 s -> later e s0 s1 /\ later e s0 s2 /\ later e s0 s'.
Proof.
  intros LG AM L. pose proof (envs_later _ _ _ _ L (wt_envs1 LG AM)) as L1. assert (L2 : later e s0 s2) by (rewrite <- wt_transact; apply later_tx; exact L1).
  split; [exact L1|]. split; [exact L2|]. exact (envs_later _ _ _ _ L2 (wt_envs2 LG AM)).
Qed.
Lemma wt_anytime : legal e ms -> anytime e s -> anytime e s1 /\ anytime e s2 /\ anytime e s'.
Proof.
  intros LG AT. pose proof (anytime_amounts e EO s AT) as AM. destruct AT as (s0 & G & L). destruct (wt_later s0 LG AM L) as (L1 & L2 & L3).
  split; [|split]; exists s0; auto.
Qed.
Lemma wt_legal : legal e ms -> legal e (merge (x_accts x)).
Proof.
  intros LG a IA SA PD. destruct (wt_signed (mk a)) as [(a' & I' & E' & S')|[(k & u & b1 & E & _)|(_ & k & b1 & E)]]; [exists a; auto| | |].
  - apply (LG a' I' S'). rewrite E'. exact PD.
  - eapply (po_dex _ _ PO); [exists b1; exact E|exact PD].
  - eapply (po_dex_init _ _ PO); [exact E|exact PD].
Qed.
End Went.
End Rely.
