(** The proxy's guarantees. *)
From Verif Require Import Base BaseProofs Fees ListSum Queue Codec Critbit CritbitSlab Market Slots Matching MatchSteps Ledger Core CoreNew Instr InstrProofs Store Process StoreProofs World WorldInv WorldLoad WorldRun WorldStep WorldSpec WorldFacts WorldMain WorldPay WorldAuth WorldRights Proxy ProxySpec ProxyAmounts ProxyProofs.

Lemma pack_bytes i : is_bytes (pack i).
Proof.
  assert (A : forall a b, is_bytes a -> is_bytes b -> is_bytes (a ++ b)) by (intros; apply Forall_app; auto).
  assert (V3 : forall x, is_bytes (pack_v3 x)) by (intros; unfold pack_v3; repeat apply A; apply le_bytes).
  assert (F : forall (X : Type) (f : X -> bytes) l, (forall x, is_bytes (f x)) -> is_bytes (flat_map f l)) by (intros X f l HF; induction l; cbn [flat_map]; [constructor|apply A; auto]).
  unfold pack. apply A; [apply le_bytes|]. apply A; [apply le_bytes|].
  destruct i; cbn [body]; unfold pack_v1, pack_take, key_le; repeat apply A; try apply le_bytes; try apply V3; try constructor; apply F; intros; try apply le_bytes; apply V3.
Qed.

Section Main.
Variable e : env.
Hypothesis EO : env_ok e.
Variable px : pxenv.
Hypothesis PO : px_ok e px.
Notation D := (dexd e).

Lemma agreed_of ms w : sealed px ms -> signed_by ms w \/ (exists k u b, px_open px k u b = Some w /\ signed_by ms u) -> agreed px ms w.
Proof.
  intros SE [H|(k & u & b & E & H)].
  - split; [|auto]. intros k u A. exfalso. apply (proj1 (SE w H) k u A).
  - split; [|intros N; exfalso; apply (N k u); exists b; exact E]. intros k' u' A. destruct (po_open _ _ PO k' u' k u w A) as [_ ->]; [exists b; exact E|exact H].
Qed.

(** ** A call not relayed changes nothing *)
Theorem run_other c mws s ms data s' : guarded mws -> run e px c mws s ms data = Ok s' -> (forall i, ~ asks data i) -> s' = s.
Proof. intros GM H N. destruct (run_went e px _ _ _ _ _ _ GM H) as [(-> & _)|(i & acc & b & bi & x & s1 & s2 & W)]; [reflexivity|]. exfalso. exact (N i (wt_ask _ _ _ _ _ _ _ _ _ _ _ _ _ _ _ W)). Qed.

(** ** Histories *)
Theorem run_anytime c mws s ms data s' : guarded mws -> legal e ms -> is_bytes data -> run e px c mws s ms data = Ok s' -> anytime e s -> anytime e s'.
Proof.
  intros GM LG HB H AT. destruct (run_went e px _ _ _ _ _ _ GM H) as [(-> & _)|(i & acc & b & bi & x & s1 & s2 & W)]; [exact AT|]. exact (proj2 (proj2 (wt_anytime e EO px PO W HB LG AT))).
Qed.
Theorem run_history c mws s ms data s' : guarded mws -> legal e ms -> is_bytes data -> run e px c mws s ms data = Ok s' ->
  history e s -> no_overflow e s -> sized s -> history e s'.
Proof.
  intros GM LG HB H HI NO SZ. destruct (run_went e px _ _ _ _ _ _ GM H) as [(-> & _)|(i & acc & b & bi & x & s1 & s2 & W)]; [exact HI|].
  pose proof (anytime_amounts e EO s (history_anytime e s HI)) as AM.
  assert (H1 : history e s1) by (eapply envs_reach; [exact HI|exact (wt_envs1 e EO px PO W LG AM)]).
  assert (H2 : history e s2).
  { rewrite <- (wt_transact e px W HB). apply reach_tx; [exact H1| | |apply pack_bytes|exact (wt_legal e px PO W HB LG)].
    - intros k m HK UM. pose proof (wt_was e EO px W k _ HK ltac:(discriminate)) as HK0. destruct (NO k m HK0 UM) as [N1 N2]. split.
      + intros q HQ. apply N1. apply (wt_was e EO px W); [exact HQ|discriminate].
      + intros cc seq HQ. eapply N2. apply (wt_was e EO px W); [exact HQ|discriminate].
    - intros y. destruct (wt_facts e px W) as (_ & _ & [E|(_ & C)]).
      + rewrite (proj1 (proj2 (call_tokens_D e EO _ _ _ _ (wt_pre _ _ _ _ _ _ _ _ _ _ _ _ _ _ _ W)))), E. apply SZ.
      + rewrite (proj1 (proj2 (call_tokens_D e EO _ _ _ _ (wt_pre _ _ _ _ _ _ _ _ _ _ _ _ _ _ _ W)))). destruct (created_view e EO px _ _ C) as (p & k & u & _ & _ & _ & _ & VL). rewrite VL.
        destruct (y =? p); [unfold OO_LEN, I64_MAX; lia|apply SZ]. }
  eapply envs_reach; [exact H2|]. exact (wt_envs2 e EO px PO W HB LG AM).
Qed.

(** ** Opening *)
Theorem run_open c mws s ms data s' : guarded mws -> legal e ms -> is_bytes data -> anytime e s -> run e px c mws s ms data = Ok s' -> asks data IInitOO ->
  exists k u m oo b bi a, key_at ms 3 = Some (oo_owner oo) /\ signs ms 4 u /\ key_at ms 5 = Some k /\ px_open px k u b = Some (oo_owner oo) /\
    D s (oo_owner oo) = None /\ D s' (oo_owner oo) = Some (DOO oo) /\ blank_for k (oo_owner oo) oo /\
    D s k = Some (DMarket m) /\ ~ disabled m /\ px_init px k bi = Some a /\ (permissioned m -> m_oo_auth m = a) /\
    (forall y, y <> oo_owner oo -> D s' y = D s y) /\ same_tokens s s'.
Proof.
  intros GM LG HB AT H AK. destruct (run_went e px _ _ _ _ _ _ GM H) as [(_ & N)|(i & acc & b & bi & x & s1 & s2 & W)]; [exfalso; exact (N _ AK)|].
  assert (EI : i = IInitOO). { pose proof (wt_ask _ _ _ _ _ _ _ _ _ _ _ _ _ _ _ W) as [U _]. destruct AK as [U' _]. congruence. } subst i.
  destruct (wt_anytime e EO px PO W HB LG AT) as (AT1 & _). pose proof (anytime_struct e EO s1 AT1) as WS. pose proof (wt_process e px W HB) as PR.
  pose proof (wt_acc _ _ _ _ _ _ _ _ _ _ _ _ _ _ _ W) as (d & EM & _). pose proof (wt_hand _ _ _ _ _ _ _ _ _ _ _ _ _ _ _ W) as HH. cbn [handle] in HH.
  destruct (init_inv e px ms acc d b bi s x EM HH) as (dexp & sys & oa & user & mkt & rent & auth & rest & need & EA & P1 & P2 & SG & A1 & A2 & EX).
  cbn [process] in PR. destruct (init_oo_deed e EO _ _ _ _ WS PR) as (k & x0 & w & m & oo & rest0 & KM & SG1 & EN & DE & LO & OW & TK).
  rewrite merge_keys, EX in KM. cbn [x_accts map mk] in KM. injection KM as E0 E1 E2 _. subst x0 w k.
  assert (W1 : x_pre x = [] /\ x_post x = []) by (rewrite EX; auto). destruct W1 as [EP EQ]. pose proof (wt_pre _ _ _ _ _ _ _ _ _ _ _ _ _ _ _ W) as TP. rewrite EP in TP. cbn [call_tokens] in TP.
  pose proof (wt_post _ _ _ _ _ _ _ _ _ _ _ _ _ _ _ W) as TQ. rewrite EQ in TQ. cbn [call_tokens] in TQ. assert (ES1 : x_store x = s1) by congruence. assert (ES2 : s2 = s') by congruence. subst s2.
  assert (C : created e px s s1). { destruct (handle_facts e px ms acc d s IInitOO b bi x EM HH) as (_ & _ & [Q|(_ & Q)]); [|rewrite <- ES1; exact Q].
    exfalso. assert (Y : sget (x_store x) (mk oa) = sget s (mk oa)) by (rewrite Q; reflexivity). rewrite EX in Y. cbn [x_store] in Y. rewrite sget_sput, Z.eqb_refl in Y. rewrite <- Y in A1. cbn [a_prog] in A1. exact (eo_sys _ EO A1). }
  assert (HZ : D s1 (mk oa) = Some DZero). { rewrite <- ES1, EX. cbn [x_store]. unfold dexd. rewrite sget_sput, Z.eqb_refl. cbn [a_prog a_data]. rewrite Z.eqb_refl. reflexivity. }
  assert (HN : D s (mk oa) = None). { unfold dexd. rewrite A1. pose proof (eo_sys _ EO). replace (0 =? e_prog e) with false by lia. reflexivity. }
  assert (VO : forall y, y <> mk oa -> D s1 y = D s y). { intros y NY. rewrite <- ES1, EX. cbn [x_store]. unfold dexd. rewrite sget_sput. replace (y =? mk oa) with false by lia. rewrite sget_lam. destruct (Z.eqb_spec y (mk user)) as [->|]; reflexivity. }
  destruct LO as [(L1 & _)|(_ & AU & EF)]; [congruence|].
  pose proof (de_mkt _ _ _ _ _ _ _ DE) as HM.
  exists (mk mkt), (mk user), m, oo, b, bi, (mk auth). rewrite OW. split; [rewrite EM, EA; reflexivity|]. split; [unfold signs; rewrite EM, EA; cbn [nth_error]; destruct user as [uk us]; cbn [mk mk_signer] in *; congruence|].
  split; [rewrite EM, EA; reflexivity|]. split; [exact P1|]. split; [exact HN|]. split; [exact (de_at _ _ _ _ _ _ _ DE _ _ eq_refl)|].
  split. { rewrite EF. unfold blank_for, oo_fresh. cbn [oo_flags oo_market oo_owner oo_coin_free oo_coin_total oo_pc_free oo_pc_total oo_rebates]. repeat (split; [reflexivity|]). intros j HJ. unfold is_free. cbn [oo_free_bits]. change U128_MAX with (Z.ones 128). apply Z.ones_spec_low. exact HJ. }
  split; [apply (wt_was e EO px W); [exact HM|discriminate]|]. split; [apply enabled_not; exact EN|]. split; [exact P2|].
  split. { intros PM. apply oo_auth_perm in PM; [|exact (ws_flags _ WS _ _ HM)]. destruct (AU _ PM) as (a & N4 & EA4 & _). rewrite EX in N4. unfold merge in N4. cbn [x_accts map nth_error mk] in N4. assert (EQ4 : mk a = mk auth) by (injection N4 as <-; reflexivity). congruence. }
  split.
  - intros y NY. rewrite <- (VO y NY). destruct (init_oo_ran e _ _ _ _ WS PR) as (k3 & x3 & w3 & m3 & au3 & oo3 & r3 & KM3 & _ & _ & _ & _ & _ & _ & ES').
    rewrite merge_keys, EX in KM3. cbn [x_accts map mk] in KM3. injection KM3 as E3 _ _ _. subst x3. rewrite ES', dexd_put. replace (y =? mk oa) with false by lia. reflexivity.
  - intros v. rewrite TK. destruct (created_view e EO px _ _ C) as (p & k & u & _ & _ & _ & VT & _). apply VT.
Qed.

(** ** Whose accounts change *)
Theorem run_owner c mws s ms data s' x oo : guarded mws -> legal e ms -> sealed px ms -> is_bytes data -> anytime e s -> run e px c mws s ms data = Ok s' ->
  D s x = Some (DOO oo) -> D s' x <> D s x ->
  In x (map mk ms) /\
  (agreed px ms (oo_owner oo) \/
   (exists n m, asks data (IPrune n) /\ D s (oo_market oo) = Some (DMarket m) /\ permissioned m /\ signed_by ms (m_prune_auth m)) \/
   exists i, asks data i /\ consuming i).
Proof.
  intros GM LG SE HB AT H HX NE. destruct (run_went e px _ _ _ _ _ _ GM H) as [(-> & _)|(i & acc & b & bi & xx & s1 & s2 & W)]; [congruence|].
  pose proof (wt_ask _ _ _ _ _ _ _ _ _ _ _ _ _ _ _ W) as AK. destruct (wt_anytime e EO px PO W HB LG AT) as (AT1 & _). pose proof (wt_process e px W HB) as PR.
  pose proof (wt_kept e EO px W x _ HX) as HX1. assert (NE1 : D s2 x <> D s1 x) by (rewrite <- (wt_D2 e EO px W x); congruence).
  destruct (owner_only e EO _ _ _ _ _ _ _ AT1 PR HX1 NE1) as (IN & R). rewrite merge_keys in IN. split; [exact (proj1 (wt_facts e px W) _ IN)|].
  destruct R as [R|[(n & m & EI & HM & PM & SP)|CI]].
  - left. destruct (wt_signed e px W HB _ R) as [S|[(k & u & b1 & E & S & _)|(EI & k & b1 & E)]].
    + apply agreed_of; auto.
    + apply agreed_of; [assumption|]. right. eauto.
    + exfalso. subst i. destruct (run_open c mws s ms data s' GM LG HB AT H AK) as (k1 & u1 & m1 & oo1 & b2 & bi2 & a & _ & _ & _ & _ & DN & _ & _ & _ & _ & _ & _ & VO & _).
      apply NE. apply VO. intros ->. congruence.
  - right. left. subst i. exists n, m. split; [exact AK|]. split; [apply (wt_was e EO px W); [exact HM|discriminate]|]. split; [exact PM|].
    destruct (wt_signed e px W HB _ SP) as [S|[(k & u & b1 & E & S & _ & Q)|(EI & _)]]; [exact S| |discriminate].
    exfalso. apply merge_signed in SP. pose proof (wt_acc _ _ _ _ _ _ _ _ _ _ _ _ _ _ _ W) as (d & EM & _). pose proof (wt_hand _ _ _ _ _ _ _ _ _ _ _ _ _ _ _ W) as HH. cbn [handle] in HH.
    unfold pda_prune in HH. cbn [x_accts x_store x_seeds x_pre x_post] in HH. peel HH. peel HH. apply at_nth in E0, E1. match goal with H0 : Ok ?z = Ok xx |- _ => assert (EX : xx = z) by congruence end.
    rewrite EX in SP. cbn [x_accts] in SP. destruct SP as (a & IA & EA & SA). apply set_nth_in in IA. assert (IM : In a ms) by (destruct IA as [->|IA]; [eapply in_acc; eassumption|rewrite EM; right; exact IA]).
    apply (proj1 (SE (m_prune_auth m) (ex_intro _ a (conj IM (conj EA SA)))) k u). exists b1. exact E.
  - right. right. exists i. auto.
Qed.

(** ** Forwarding *)
Lemma set_nth_len {A} i (a : A) l : length (set_nth i a l) = length l.
Proof. revert i. induction l as [|z l IH]; intros [|i]; try reflexivity. unfold set_nth. cbn [firstn skipn app length]. f_equal. apply IH. Qed.
Lemma set_nth_replaced i a l : (i < length l)%nat -> replaced i a l (set_nth i a l).
Proof. intros H. split; [apply set_nth_len|]. split; [apply set_nth_at; exact H|]. intros j N. apply set_nth_other. congruence. Qed.
Lemma merge_spread l : spread l (merge l).
Proof.
  split; [apply merge_keys|]. intros a I. unfold merge in I. apply in_map_iff in I. destruct I as (a' & <- & I). cbn [mk mk_signer]. apply signed_in_by.
Qed.
Lemma nth_lt {A} (l : list A) i a : nth_error l i = Some a -> (i < length l)%nat.
Proof. intros H. apply nth_error_Some. congruence. Qed.
Lemma key_tl (d : meta) acc ms i a : ms = d :: acc -> nth_error acc i = Some a -> key_at ms (S i) = Some (mk a).
Proof. intros -> H. unfold key_at. cbn [nth_error]. rewrite H. reflexivity. Qed.
Lemma signs_tl (d : meta) acc ms i a : ms = d :: acc -> nth_error acc i = Some a -> mk_signer a = true -> signs ms (S i) (mk a).
Proof. intros -> H S. unfold signs. cbn [nth_error]. rewrite H. destruct a as [ak asg]. cbn [mk mk_signer] in *. congruence. Qed.
Theorem run_forwarded c mws s ms data s' i mi ui oi : guarded mws -> is_bytes data -> run e px c mws s ms data = Ok s' -> asks data i -> spots i = Some (mi, ui, oi) ->
  exists k u x acc acc', key_at ms (S mi) = Some k /\ signs ms (S ui) u /\ key_at ms (S oi) = Some x /\ (signed_by ms x \/ px_open px k u (px_bump px k u) = Some x) /\
    replaced ui (mkMeta x true) (tl ms) acc /\ spread acc acc' /\ process e c s i acc' = Ok s'.
Proof.
  intros GM HB H AK SP. destruct (run_went e px _ _ _ _ _ _ GM H) as [(_ & N)|(j & acc & b & bi & x & s1 & s2 & W)]; [exfalso; exact (N _ AK)|].
  assert (EI : j = i). { pose proof (wt_ask _ _ _ _ _ _ _ _ _ _ _ _ _ _ _ W) as [U _]. destruct AK as [U' _]. congruence. } subst j.
  pose proof (wt_acc _ _ _ _ _ _ _ _ _ _ _ _ _ _ _ W) as (d & EM & _). pose proof (wt_hand _ _ _ _ _ _ _ _ _ _ _ _ _ _ _ W) as HH.
  assert (HS : pda_sign px mi ui oi (mkCtx s acc [] [] []) = Ok x) by (destruct i; cbn [spots] in SP; try discriminate; injection SP as <- <- <-; exact HH).
  destruct (sign_seeds px ms acc d mi ui oi s x i EM HS) as (mkt & user & oo & N1 & N2 & SG & N3 & EX & G).
  pose proof (wt_pre _ _ _ _ _ _ _ _ _ _ _ _ _ _ _ W) as TP. pose proof (wt_post _ _ _ _ _ _ _ _ _ _ _ _ _ _ _ W) as TQ. rewrite EX in TP, TQ. cbn [x_pre x_post x_store call_tokens] in TP, TQ.
  assert (s1 = s) by congruence. assert (s2 = s') by congruence. subst s1 s2. pose proof (wt_process e px W HB) as PR. rewrite EX in PR. cbn [x_accts] in PR.
  exists (mk mkt), (mk user), (mk oo), (set_nth ui (mkMeta (mk oo) true) acc), (merge (set_nth ui (mkMeta (mk oo) true) acc)).
  split; [eapply key_tl; eassumption|]. split; [eapply signs_tl; eassumption|]. split; [eapply key_tl; eassumption|]. split.
  - assert (SB : signed_by (x_accts x) (mk oo)) by (rewrite EX; cbn [x_accts]; exists (mkMeta (mk oo) true); split; [eapply nth_error_In, set_nth_at, nth_lt; exact N2|auto]).
    destruct (proj2 (dex_called _ _ _ _ _ _ _ _ _ (wt_wf _ _ _ _ _ _ _ _ _ _ _ _ _ _ _ W HB) (wt_dex _ _ _ _ _ _ _ _ _ _ _ _ _ _ _ W)) _ SB) as [?|(sd & I & E)]; [auto|].
    rewrite EX in I. cbn [x_seeds In] in I. destruct I as [<-|[]]. right. exact E.
  - rewrite EM. cbn [tl]. split; [apply set_nth_replaced; eapply nth_lt; exact N2|]. split; [apply merge_spread|exact PR].
Qed.
Theorem run_passed c mws s ms data s' i : guarded mws -> is_bytes data -> run e px c mws s ms data = Ok s' -> asks data i -> consuming i ->
  exists acc', spread (tl ms) acc' /\ process e c s i acc' = Ok s'.
Proof.
  intros GM HB H AK CI. destruct (run_went e px _ _ _ _ _ _ GM H) as [(_ & N)|(j & acc & b & bi & x & s1 & s2 & W)]; [exfalso; exact (N _ AK)|].
  assert (EI : j = i). { pose proof (wt_ask _ _ _ _ _ _ _ _ _ _ _ _ _ _ _ W) as [U _]. destruct AK as [U' _]. congruence. } subst j.
  pose proof (wt_acc _ _ _ _ _ _ _ _ _ _ _ _ _ _ _ W) as (d & EM & _). pose proof (wt_hand _ _ _ _ _ _ _ _ _ _ _ _ _ _ _ W) as HH.
  assert (EX : x = mkCtx s acc [] [] []) by (destruct CI as (n & [->| ->]); cbn [handle] in HH; congruence).
  pose proof (wt_pre _ _ _ _ _ _ _ _ _ _ _ _ _ _ _ W) as TP. pose proof (wt_post _ _ _ _ _ _ _ _ _ _ _ _ _ _ _ W) as TQ. rewrite EX in TP, TQ. cbn [x_pre x_post x_store call_tokens] in TP, TQ.
  assert (s1 = s) by congruence. assert (s2 = s') by congruence. subst s1 s2. pose proof (wt_process e px W HB) as PR. rewrite EX in PR. cbn [x_accts] in PR.
  exists (merge acc). rewrite EM. cbn [tl]. split; [apply merge_spread|exact PR].
Qed.
Theorem run_pruned c mws s ms data s' n : guarded mws -> is_bytes data -> run e px c mws s ms data = Ok s' -> asks data (IPrune n) ->
  exists a acc acc', nth_error ms 5 = Some a /\ replaced 5 a (tl ms) acc /\ spread acc acc' /\ process e c s (IPrune n) acc' = Ok s'.
Proof.
  intros GM HB H AK. destruct (run_went e px _ _ _ _ _ _ GM H) as [(_ & N)|(j & acc & b & bi & x & s1 & s2 & W)]; [exfalso; exact (N _ AK)|].
  assert (EI : j = IPrune n). { pose proof (wt_ask _ _ _ _ _ _ _ _ _ _ _ _ _ _ _ W) as [U _]. destruct AK as [U' _]. congruence. } subst j.
  pose proof (wt_acc _ _ _ _ _ _ _ _ _ _ _ _ _ _ _ W) as (d & EM & _). pose proof (wt_hand _ _ _ _ _ _ _ _ _ _ _ _ _ _ _ W) as HH.
  cbn [handle] in HH. unfold pda_prune in HH. cbn [x_accts x_store x_seeds x_pre x_post] in HH. peel HH. peel HH. apply at_nth in E, E0. match goal with H0 : Ok ?z = Ok x |- _ => assert (EX : x = z) by congruence end.
  pose proof (wt_pre _ _ _ _ _ _ _ _ _ _ _ _ _ _ _ W) as TP. pose proof (wt_post _ _ _ _ _ _ _ _ _ _ _ _ _ _ _ W) as TQ. rewrite EX in TP, TQ. cbn [x_pre x_post x_store call_tokens] in TP, TQ.
  assert (s1 = s) by congruence. assert (s2 = s') by congruence. subst s1 s2. pose proof (wt_process e px W HB) as PR. rewrite EX in PR. cbn [x_accts] in PR.
  exists v, (set_nth 5 v acc), (merge (set_nth 5 v acc)). rewrite EM. cbn [tl nth_error]. split; [exact E|]. split; [apply set_nth_replaced; eapply nth_lt; exact E0|]. split; [apply merge_spread|exact PR].
Qed.
Theorem run_referral c mws s ms data s' r : guarded mws -> is_bytes data -> anytime e s -> run e px c mws s ms data = Ok s' -> asks data ISettleFunds -> In (MReferral r) mws ->
  exists a t, key_at ms 10 = Some a /\ token_at s a = Some t /\ t_owner t = r.
Proof.
  intros GM HB AT H AK IR. destruct (run_went e px _ _ _ _ _ _ GM H) as [(_ & N)|(j & acc & b & bi & x & s1 & s2 & W)]; [exfalso; exact (N _ AK)|].
  assert (EI : j = ISettleFunds). { pose proof (wt_ask _ _ _ _ _ _ _ _ _ _ _ _ _ _ _ W) as [U _]. destruct AK as [U' _]. congruence. } subst j.
  destruct (wt_ref _ _ _ _ _ _ _ _ _ _ _ _ _ _ _ W eq_refl r IR) as (a & N9 & AU). pose proof (wt_acc _ _ _ _ _ _ _ _ _ _ _ _ _ _ _ W) as (d & EM & _).
  destruct (run_forwarded c mws s ms data s' ISettleFunds 0 2 1 GM HB H AK eq_refl) as (k & u & x1 & acc0 & acc' & _ & _ & _ & _ & (RL & _ & RO) & (SK & _) & PR).
  cbn [process] in PR. unfold proc_settle in PR.
  assert (K9 : nth_error (map mk acc') 9 = Some (mk a)). { rewrite SK. rewrite nth_error_map, RO by discriminate. rewrite EM. cbn [tl]. rewrite N9. reflexivity. }
  do 9 (destruct acc' as [|? acc']; try discriminate). do 8 peel PR. destruct acc' as [|r1 [|? ?]]; [discriminate K9| |discriminate].
  cbn [map nth_error] in K9. peel E6. assert (EA : mk r1 = mk a) by congruence. unfold load_pc_wallet in E7. peel E7. unfold load_token in E8. peel E8. peel E8. apply check_ok in E9. rewrite EA in *.
  unfold authority_of in AU. destruct (a_data (sget s (mk a))) eqn:AD; try discriminate. exists (mk a), t. split; [eapply key_tl; eassumption|]. split; [|exact AU]. unfold token_at. rewrite E9, AD. reflexivity.
Qed.

(** ** Tokens *)
Lemma signed_agreed ms i w k0 : sealed px ms -> signed_by ms w \/ (exists k u b, px_open px k u b = Some w /\ signed_by ms u /\ In k (map mk ms) /\ (b = px_bump px k u \/ i = IInitOO)) \/ (i = IInitOO /\ k0) -> i <> IInitOO -> agreed px ms w.
Proof. intros SE [H|[(k & u & b & E & H & _)|(EI & _)]] NI; [apply agreed_of; auto|apply agreed_of; [assumption|right; eauto]|contradiction]. Qed.
Lemma call_tokens_tok ms l : forall s s', call_tokens s ms l = Ok s' -> forall v t, token_at s v = Some t ->
  exists t', token_at s' v = Some t' /\ t_mint t' = t_mint t /\ t_owner t' = t_owner t /\ t_amount t' = t_amount t /\ (t' = t \/ signed_by ms (t_owner t)).
Proof.
  induction l as [|x l IH]; intros s s' H v t HT; cbn [call_tokens] in H; [injection H as <-; exists t; auto 10|]. peel H.
  assert (R : exists t1, token_at v0 v = Some t1 /\ t_mint t1 = t_mint t /\ t_owner t1 = t_owner t /\ t_amount t1 = t_amount t /\ (t1 = t \/ signed_by ms (t_owner t))).
  { destruct x; cbn [call_token] in E; destruct (tok_set_view e EO _ _ _ _ _ _ _ E) as (t0 & T0 & OW & _ & SG & _ & VT & _); rewrite VT; destruct (Z.eqb_spec v src) as [->|N]; try (exists t; auto 10; fail);
      (assert (t0 = t) by congruence; subst t0; eexists; split; [reflexivity|]; cbn [set_delegate t_mint t_owner t_amount]; rewrite OW; auto 10). }
  destruct R as (t1 & T1 & M1 & O1 & A1 & X1). destruct (IH _ _ H v t1 T1) as (t2 & T2 & M2 & O2 & A2 & X2). exists t2. split; [assumption|]. split; [congruence|]. split; [congruence|]. split; [congruence|].
  destruct X2 as [->|X2]; [assumption|]. right. congruence.
Qed.
Theorem run_tokens c mws s ms data s' v t : guarded mws -> legal e ms -> sealed px ms -> is_bytes data -> anytime e s -> run e px c mws s ms data = Ok s' -> token_at s v = Some t ->
  exists t', token_at s' v = Some t' /\ t_mint t' = t_mint t /\ t_owner t' = t_owner t /\
    (t_amount t' < t_amount t -> agreed px ms (t_owner t) \/ (exists d, t_delegate t = Some d /\ agreed px ms d) \/
       (asks data ISettleFunds /\ exists k m, key_at ms 1 = Some k /\ D s k = Some (DMarket m) /\ (v = m_coin_vault m \/ v = m_pc_vault m))).
Proof.
  intros GM LG SE HB AT H HT. destruct (run_went e px _ _ _ _ _ _ GM H) as [(-> & _)|(i & acc & b & bi & x & s1 & s2 & W)]; [exists t; repeat (split; [auto|]); lia|].
  pose proof (wt_ask _ _ _ _ _ _ _ _ _ _ _ _ _ _ _ W) as AK. destruct (wt_anytime e EO px PO W HB LG AT) as (AT1 & _). pose proof (wt_process e px W HB) as PR.
  assert (DI : i = IInitOO \/ i <> IInitOO) by (destruct i; auto; right; discriminate). destruct DI as [->|NI].
  { destruct (run_open c mws s ms data s' GM LG HB AT H AK) as (k1 & u1 & m1 & oo1 & b2 & bi2 & a & R). assert (ST : same_tokens s s') by tauto. exists t. rewrite ST. repeat (split; [auto|]). lia. }
  destruct (wt_facts e px W) as (IK & _ & [ES|(EI & _)]); [|contradiction].
  pose proof (wt_pre _ _ _ _ _ _ _ _ _ _ _ _ _ _ _ W) as TP. rewrite ES in TP. destruct (call_tokens_tok _ _ _ _ TP v t HT) as (t1 & T1 & M1 & O1 & A1 & X1).
  destruct (tokens_safe e EO _ _ _ _ _ _ _ AT1 PR T1) as (t2 & T2 & M2 & O2 & DL2 & A2).
  destruct (call_tokens_tok _ _ _ _ (wt_post _ _ _ _ _ _ _ _ _ _ _ _ _ _ _ W) v t2 T2) as (t3 & T3 & M3 & O3 & A3 & X3).
  exists t3. split; [assumption|]. split; [congruence|]. split; [congruence|]. intros LT. destruct (A2 ltac:(lia)) as [S|[(d & DD & S)|(PV & k & m & K0 & HM & VV)]].
  - left. rewrite O1 in S. eapply signed_agreed; [exact SE|exact (wt_signed e px W HB _ S)|exact NI].
  - destruct X1 as [->|X1]; [right; left; exists d; split; [assumption|]; eapply signed_agreed; [exact SE|exact (wt_signed e px W HB _ S)|exact NI]|]. left. apply agreed_of; auto.
  - right. right. assert (EI : i = ISettleFunds). { destruct i; cbn [pays_from_vault] in PV; try contradiction; [reflexivity|exfalso; apply (proj2 AK); reflexivity|exfalso; apply (proj2 AK); reflexivity]. }
    subst i. split; [exact AK|]. exists k, m. split; [|split; [apply (wt_was e EO px W); [exact HM|discriminate]|exact VV]].
    pose proof (wt_acc _ _ _ _ _ _ _ _ _ _ _ _ _ _ _ W) as (d & EM & _). pose proof (wt_hand _ _ _ _ _ _ _ _ _ _ _ _ _ _ _ W) as HH. cbn [handle] in HH.
    destruct (sign_seeds px ms acc d 0 2 1 s x ISettleFunds EM HH) as (mkt & user & oo & N1 & N2 & SG & N3 & EX & G). rewrite (key_map _ _ _ eq_refl), merge_keys, EX in K0. cbn [x_accts] in K0. rewrite nth_error_map, set_nth_other in K0 by discriminate.
    rewrite N1 in K0. cbn [option_map] in K0. injection K0 as <-. eapply key_tl; eassumption.
Qed.

(** ** The allowance of an order *)
Lemma in_limit s h src v auth amt s' t : transfer_in s h src v auth amt = Ok s' -> token_at s src = Some t -> t_delegate t = Some auth -> 0 <= amt <= Z.max 0 (t_delegated t).
Proof.
  intros H HT HD. unfold transfer_in in H. destruct (Z.eqb_spec amt 0) as [->|N]; [lia|]. peel H. nextc H HH. peel H. unfold spl_transfer in E0. rewrite HT in E0. cbn [ok_or rbind] in E0. peel E0. apply check_ok in E1.
  peel E0. peel E0. peel E0. peel E0. peel E0. peel E0. peel E0. apply check_ok in E8. unfold is_delegate in E8. rewrite HD, Z.eqb_refl in E8. cbn [negb orb] in E8. lia.
Qed.
Theorem run_order c mws s ms data s' ix : guarded mws -> legal e ms -> is_bytes data -> anytime e s -> run e px c mws s ms data = Ok s' -> asks data (INewOrderV3 ix) ->
  exists k u x payer m t oo dep, key_at ms 1 = Some k /\ key_at ms 2 = Some x /\ key_at ms 7 = Some payer /\ signs ms 8 u /\ (signed_by ms x \/ px_open px k u (px_bump px k u) = Some x) /\
    D s k = Some (DMarket m) /\ D s' x = Some (DOO oo) /\ oo_owner oo = x /\ oo_market oo = k /\
    token_at s payer = Some t /\ t_owner t = u /\ t_mint t = match oi_side ix with Bid => m_pc_mint m | Ask => m_coin_mint m end /\
    0 <= dep <= match oi_side ix with Bid => oi_pc ix | Ask => Z.max 0 (oi_qty ix * m_coin_lot m) end /\
    token_at s' payer = Some (mkToken (t_mint t) u (t_amount t - dep) None 0 (t_state t) (t_close t)) /\
    forall v, v <> payer -> match token_at s v with
      | Some tv => token_at s' v = Some (if v =? match oi_side ix with Bid => m_pc_vault m | Ask => m_coin_vault m end then set_amount tv (t_amount tv + dep) else tv)
      | None => token_at s' v = None end.
Proof.
  intros GM LG HB AT H AK. destruct (run_went e px _ _ _ _ _ _ GM H) as [(_ & N)|(j & acc & b & bi & xx & s1 & s2 & W)]; [exfalso; exact (N _ AK)|].
  assert (EI : j = INewOrderV3 ix). { pose proof (wt_ask _ _ _ _ _ _ _ _ _ _ _ _ _ _ _ W) as [U _]. destruct AK as [U' _]. congruence. } subst j.
  pose proof (wt_wf _ _ _ _ _ _ _ _ _ _ _ _ _ _ _ W HB) as WF. cbn [wf_instr] in WF. destruct WF as (_ & WQ & WP & _). unfold nz64 in WQ, WP.
  pose proof (wt_acc _ _ _ _ _ _ _ _ _ _ _ _ _ _ _ W) as (d & EM & _). pose proof (wt_hand _ _ _ _ _ _ _ _ _ _ _ _ _ _ _ W) as HH. cbn [handle] in HH.
  destruct (order_seeds px ms acc d s xx ix (INewOrderV3 ix) EM HH) as (mkt & oa & payer & user & amt & N0 & N1 & N6 & N7 & SG & AM & EX & G).
  pose proof (wt_pre _ _ _ _ _ _ _ _ _ _ _ _ _ _ _ W) as TP. pose proof (wt_post _ _ _ _ _ _ _ _ _ _ _ _ _ _ _ W) as TQ. rewrite EX in TP, TQ. cbn [x_pre x_post x_store call_tokens call_token] in TP, TQ.
  peel TP. assert (v = s1) by congruence. subst v. peel TQ. assert (v = s') by congruence. subst v.
  destruct (tok_set_view e EO _ _ _ _ _ _ _ E) as (t & T & OW & ST & SB & VD & VT & _). destruct (tok_set_view e EO _ _ _ _ _ _ _ E0) as (t2 & T2 & OW2 & ST2 & _ & VD2 & VT2 & _).
  destruct (wt_anytime e EO px PO W HB LG AT) as (AT1 & _). pose proof (anytime_struct e EO s1 AT1) as WS. pose proof (wt_process e px W HB) as PR. cbn [process] in PR.
  destruct (new_order_ran e s1 c ix _ s2 WS PR) as (k & x & py & w & m & bids & asks0 & q & rq & tr & oo & pt & o' & rq' & oo' & dep & R).
  destruct (no_frame e s1 c ix (merge (x_accts xx)) s2 k x py w m bids asks0 q rq tr oo pt o' rq' oo' dep R) as (SM & SI & _).
  destruct R as [(rest & KM) SG7 FL [HM NB HBd HA HQ] HR HP HMI LO OWN HC TR _].
  assert (EN : forall i a, nth_error acc i = Some a -> i <> 7%nat -> nth_error (map mk (merge (x_accts xx))) i = Some (mk a)).
  { intros i a Hi Ni. rewrite merge_keys, EX. cbn [x_accts]. rewrite nth_error_map, set_nth_other by congruence. rewrite Hi. reflexivity. }
  pose proof (EN _ _ N0 ltac:(discriminate)) as K0. pose proof (EN _ _ N1 ltac:(discriminate)) as K1. pose proof (EN _ _ N6 ltac:(discriminate)) as K6.
  assert (K7 : nth_error (map mk (merge (x_accts xx))) 7 = Some (mk oa)). { rewrite merge_keys, EX. cbn [x_accts]. rewrite nth_error_map, set_nth_at by (eapply nth_lt; exact N7). reflexivity. }
  rewrite KM in K0, K1, K6, K7. cbn [nth_error] in K0, K1, K6, K7. injection K0 as ->. injection K1 as ->. injection K6 as ->. injection K7 as ->.
  destruct (oo_touch e s1 m (mk mkt) (mk oa) _ _ _ oo WS HM LO) as (TC & F & MK). pose proof SI as (I1 & I2 & I3).
  pose proof (write_obs_D e s1 (mk mkt) m bids asks0 q rq HM NB HBd HA HQ HR o') as V1. pose proof (write_obs_quiet e EO s1 (mk mkt) m bids asks0 q rq HM NB HBd HA HQ HR o') as Q1.
  set (z1 := write_obs s1 (mk mkt) (m_bids m) (m_asks m) (m_event_q m) o') in *.
  assert (V2 : forall y, D (put_data z1 (m_req_q m) (DReqQ rq')) y = overlay e s1 (mk mkt) m o' rq' None y) by (intros; eapply put_req_D; eauto).
  assert (R1 : exists d, D z1 (m_req_q m) = Some d).
  { rewrite V1. unfold overlay. repeat match goal with |- context [if ?b then _ else _] => destruct b end; eauto. }
  destruct R1 as (d1 & R1). pose proof (quiet_put e EO _ _ (DReqQ rq') _ R1) as Q2. set (z2 := put_data z1 _ _) in *.
  assert (R2 : exists d, D z2 (mk oa) = Some d) by (rewrite (over_touch e s1 (mk mkt) m bids asks0 q rq WS HM NB HBd HA HQ HR z2 o' rq' (mk oa) TC V2); eapply touch_some; exact TC).
  destruct R2 as (d2 & R2). pose proof (quiet_put e EO _ _ (DOO oo') _ R2) as Q3. assert (HX3 : D (put_data z2 (mk oa) (DOO oo')) (mk oa) = Some (DOO oo')) by (rewrite (dexd_put_owned _ _ _ _ _ _ R2), Z.eqb_refl; reflexivity).
  set (z3 := put_data z2 _ _) in *. pose proof (quiet_trans _ _ _ (quiet_trans _ _ _ Q1 Q2) Q3) as Q. pose proof (qu_tok _ _ Q) as QT.
  set (vault := match oi_side ix with Bid => m_pc_vault m | Ask => m_coin_vault m end) in *.
  assert (HMs : D s (mk mkt) = Some (DMarket m)) by (apply (wt_was e EO px W); [exact HM|discriminate]).
  assert (EAMT : Z.max 0 amt = match oi_side ix with Bid => oi_pc ix | Ask => Z.max 0 (oi_qty ix * m_coin_lot m) end).
  { destruct (oi_side ix); [subst amt; lia|]. apply cmul_ok in AM. unfold lot_of in AM. apply dexd_owned in HMs. rewrite (proj2 HMs) in AM. rewrite (proj1 AM). reflexivity. }
  assert (T3 : token_at z3 (mk payer) = Some (set_delegate t (Some (mk oa)) amt)) by (rewrite QT, VT, Z.eqb_refl; reflexivity).
  pose proof (in_limit _ _ _ _ _ _ _ _ TR T3 eq_refl) as LIM. cbn [set_delegate t_delegated] in LIM.
  exists (mk mkt), (mk user), (mk oa), (mk payer), m, t, oo', dep.
  split; [eapply key_tl; eassumption|]. split; [eapply key_tl; eassumption|]. split; [eapply key_tl; eassumption|]. split; [eapply signs_tl; eassumption|]. split.
  { assert (SBx : signed_by (x_accts xx) (mk oa)) by (rewrite EX; cbn [x_accts]; exists (mkMeta (mk oa) true); split; [eapply nth_error_In, set_nth_at, nth_lt; exact N7|auto]).
    destruct (proj2 (dex_called _ _ _ _ _ _ _ _ _ (wt_wf _ _ _ _ _ _ _ _ _ _ _ _ _ _ _ W HB) (wt_dex _ _ _ _ _ _ _ _ _ _ _ _ _ _ _ W)) _ SBx) as [?|(sd & I & E')]; [auto|].
    rewrite EX in I. cbn [x_seeds In] in I. destruct I as [<-|[]]. right. exact E'. }
  split; [exact HMs|]. split; [rewrite VD2, (in_D e EO _ _ _ _ _ _ _ _ TR); exact HX3|]. split; [congruence|]. split; [congruence|]. split; [exact T|]. split; [exact OW|].
  split. { rewrite <- HMI. rewrite VT, Z.eqb_refl in HP. injection HP as <-. reflexivity. }
  split; [rewrite <- EAMT; exact LIM|].
  destruct (transfer_in_ok e (eo_spl _ EO) _ _ _ _ _ _ _ TR) as [(ED & ES2)|(ND & TF & NV)].
  - rewrite ES2 in *. rewrite T3 in T2. split.
    + rewrite VT2, Z.eqb_refl. f_equal. injection T2 as <-. rewrite ED, <- OW, Z.sub_0_r. reflexivity.
    + intros v NV. rewrite VT2. replace (v =? mk payer) with false by lia. rewrite QT, VT. replace (v =? mk payer) with false by lia. destruct (token_at s v) as [tv|]; [|reflexivity]. f_equal.
      match goal with |- _ = if ?b then _ else _ => destruct b end; [|reflexivity]. rewrite ED, Z.add_0_r. destruct tv; reflexivity.
  - destruct (tr_tok _ _ _ _ _ _ _ TF) as (ts & td & TS & TD & _ & _ & _ & _ & _ & RR). replace (mk payer =? vault) with false in RR by lia. destruct RR as (_ & RR).
    assert (ts = set_delegate t (Some (mk oa)) amt) by congruence. subst ts. split.
    + rewrite VT2, Z.eqb_refl. rewrite RR in T2. replace (mk payer =? vault) with false in T2 by lia. rewrite Z.eqb_refl in T2. injection T2 as <-. f_equal. unfold is_delegate. cbn [set_delegate t_delegate]. rewrite Z.eqb_refl.
      rewrite <- OW. reflexivity.
    + intros v NV2. fold vault. rewrite VT2. replace (v =? mk payer) with false by lia. rewrite RR. replace (v =? mk payer) with false by lia. rewrite QT, VT. replace (v =? mk payer) with false by lia.
      destruct (Z.eqb_spec v vault) as [->|]; [|destruct (token_at s v); reflexivity]. rewrite QT, VT in TD. replace (vault =? mk payer) with false in TD by lia. rewrite TD. reflexivity.
Qed.
End Main.
