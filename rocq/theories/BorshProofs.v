(** The encodings are exact inverses of the decodings. *)
From Verif Require Import Base BaseProofs Fees Core Instr InstrProofs Store Borsh PoolStore Pool AdminPool.

(** [p] reads exactly what [f] writes, and nothing else, for the values in [W]. *)
Definition codec_ok {A} (p : parser A) (f : A -> bytes) (W : A -> Prop) : Prop :=
  (forall x r, W x -> p (f x ++ r) = Some (x, r)) /\
  (forall b x r, is_bytes b -> p b = Some (x, r) -> W x /\ b = f x ++ r /\ is_bytes r).

Lemma is_bytes_app a b : is_bytes (a ++ b) <-> is_bytes a /\ is_bytes b.
Proof. unfold is_bytes. apply Forall_app. Qed.
Lemma firstn_le n z r : firstn n (le n z ++ r) = le n z.
Proof. rewrite <- (le_len n z) at 1. rewrite firstn_app, firstn_all, Nat.sub_diag, app_nil_r. reflexivity. Qed.
Lemma skipn_le n z r : skipn n (le n z ++ r) = r.
Proof. rewrite <- (le_len n z) at 1. rewrite skipn_app, skipn_all, Nat.sub_diag. reflexivity. Qed.

Lemma num_ok n : codec_ok (get_num n) (le n) (fun z => 0 <= z < 256 ^ Z.of_nat n).
Proof.
  split.
  - intros z r H. unfold get_num. rewrite app_length, le_len. replace (n <=? n + length r)%nat with true by (symmetry; apply Nat.leb_le; lia).
    rewrite firstn_le, skipn_le, unle_le by assumption. reflexivity.
  - intros b z r B H. unfold get_num in H. destruct (Nat.leb_spec n (length b)) as [L|]; [|discriminate]. injection H as <- <-.
    split; [|split; [|apply is_bytes_skipn; assumption]].
    + pose proof (unle_bound (firstn n b) (is_bytes_firstn _ _ B)) as U. rewrite firstn_length, Nat.min_l in U by lia. exact U.
    + symmetry. exact (step_le n b B L).
Qed.
Definition wf_key (k : Z) : Prop := 0 <= k < B128 * B128.
Lemma key_len k : length (key_le k) = 32%nat.
Proof. unfold key_le. rewrite !app_length, !le_len. reflexivity. Qed.
Lemma key_ok : codec_ok get_key key_le wf_key.
Proof.
  split.
  - intros k r H. unfold get_key. rewrite app_length, key_len. replace (32 <=? 32 + length r)%nat with true by (symmetry; apply Nat.leb_le; lia).
    rewrite key_rt by exact H. rewrite skipn_app, <- (key_len k), skipn_all, Nat.sub_diag. reflexivity.
  - intros b k r B H. unfold get_key in H. destruct (Nat.leb_spec 32 (length b)) as [L|]; [|discriminate].
    assert (k = key_unle b 0) as -> by congruence. assert (r = skipn 32 b) as -> by congruence. clear H.
    destruct (key_inv b 0 B L) as [K1 K2]. split; [exact K1|]. split; [exact K2|apply is_bytes_skipn; assumption].
Qed.
Lemma raw_ok n : codec_ok (get_raw n) (fun b => b) (fun b => length b = n /\ is_bytes b).
Proof.
  split.
  - intros k r [H _]. unfold get_raw. rewrite app_length, H. replace (n <=? n + length r)%nat with true by (symmetry; apply Nat.leb_le; lia).
    rewrite firstn_app, skipn_app, <- H, firstn_all, skipn_all, Nat.sub_diag, app_nil_r. reflexivity.
  - intros b k r B H. unfold get_raw in H. destruct (Nat.leb_spec n (length b)) as [L|]; [|discriminate].
    assert (k = firstn n b) as -> by congruence. assert (r = skipn n b) as -> by congruence. clear H.
    rewrite firstn_skipn, firstn_length. split; [split; [lia|apply is_bytes_firstn; assumption]|]. split; [reflexivity|apply is_bytes_skipn; assumption].
Qed.

(** ** Stepping through a decoder *)
Lemma fwd {A B} (p : parser A) f W (k : A -> parser B) x b r : codec_ok p f W -> W x -> b = f x ++ r -> (y <~ p ;; k y) b = k x r.
Proof. intros [P _] H ->. unfold pbind. rewrite P by assumption. reflexivity. Qed.
Lemma bwd {A B} (p : parser A) f W (k : A -> parser B) b c r : codec_ok p f W -> is_bytes b -> (y <~ p ;; k y) b = Some (c, r) ->
  exists x b1, W x /\ b = f x ++ b1 /\ is_bytes b1 /\ k x b1 = Some (c, r).
Proof. intros [_ P] B0 H. unfold pbind in H. destruct (p b) as [[x b1]|] eqn:E; [|discriminate]. destruct (P _ _ _ B0 E) as (H1 & H2 & H3). exists x, b1. auto. Qed.
Lemma p1 : 256 ^ Z.of_nat 1 = 256. Proof. reflexivity. Qed.
Lemma p4 : 256 ^ Z.of_nat 4 = 4294967296. Proof. reflexivity. Qed.
Lemma p8 : 256 ^ Z.of_nat 8 = B64. Proof. reflexivity. Qed.

Lemma bool_ok : codec_ok get_bool put_bool (fun _ => True).
Proof.
  split.
  - intros x r _. unfold get_bool, put_bool. erewrite (fwd _ _ _ _ _ _ r (num_ok 1)); [| |reflexivity]; [|destruct x; cbn; lia]. destruct x; reflexivity.
  - intros b x r B H. unfold get_bool in H. eapply bwd in H; [|apply num_ok|exact B]. destruct H as (t & b1 & _ & -> & B1 & H).
    destruct (Z.eqb_spec t 0) as [->|]; [injection H as <- <-; auto|]. destruct (Z.eqb_spec t 1) as [->|]; [injection H as <- <-; auto|discriminate].
Qed.
Lemma option_ok {A} (p : parser A) f W : codec_ok p f W -> codec_ok (get_option p) (put_option f) (fun o => forall x, o = Some x -> W x).
Proof.
  intros C. split.
  - intros [x|] r H; unfold get_option, put_option.
    + rewrite <- app_assoc. erewrite (fwd _ _ _ _ _ _ (f x ++ r) (num_ok 1)); [| |reflexivity]; [|cbn; lia]. change (1 =? 0) with false. change (1 =? 1) with true. cbv iota.
      erewrite (fwd _ _ _ _ x _ r C); [| |reflexivity]; [reflexivity|auto].
    + erewrite (fwd _ _ _ _ _ _ r (num_ok 1)); [| |reflexivity]; [reflexivity|cbn; lia].
  - intros b o r B H. unfold get_option in H. eapply bwd in H; [|apply num_ok|exact B]. destruct H as (t & b1 & _ & -> & B1 & H).
    destruct (Z.eqb_spec t 0) as [->|]; [injection H as <- <-; split; [discriminate|auto]|]. destruct (Z.eqb_spec t 1) as [->|]; [|discriminate].
    eapply bwd in H; [|exact C|exact B1]. destruct H as (x & b2 & W1 & -> & B2 & H). injection H as <- <-. split; [intros ? [= <-]; assumption|].
    split; [cbn [put_option]; rewrite <- app_assoc; reflexivity|assumption].
Qed.
Lemma many_ok {A} (p : parser A) f W n : codec_ok p f W -> codec_ok (get_many n p) (flat_map f) (fun l => length l = n /\ Forall W l).
Proof.
  intros C. induction n as [|n IH]; cbn [get_many].
  - split; [intros [|] r [H _]; [reflexivity|discriminate]|]. intros b x r B H. injection H as <- <-. auto.
  - split.
    + intros [|x l] r [H F]; [discriminate|]. inversion F; subst. cbn [flat_map]. rewrite <- app_assoc.
      erewrite (fwd _ _ _ _ x _ _ C); [|assumption|reflexivity]. erewrite (fwd _ _ _ _ l _ r IH); [reflexivity| |reflexivity]. split; [injection H as H; assumption|assumption].
    + intros b l r B H. eapply bwd in H; [|exact C|exact B]. destruct H as (x & b1 & W1 & -> & B1 & H).
      eapply bwd in H; [|exact IH|exact B1]. destruct H as (l' & b2 & [L F] & -> & B2 & H). injection H as <- <-.
      split; [split; [cbn [length]; congruence|constructor; assumption]|]. split; [cbn [flat_map]; rewrite <- app_assoc; reflexivity|assumption].
Qed.
Definition len32 {A} (l : list A) : Prop := zlen l < 4294967296.
Lemma vec_ok {A} (p : parser A) f W : codec_ok p f W -> codec_ok (get_vec p) (put_vec f) (fun l => len32 l /\ Forall W l).
Proof.
  intros C. split.
  - intros l r [H F]. unfold get_vec, put_vec. rewrite <- app_assoc. erewrite (fwd _ _ _ _ (zlen l) _ _ (num_ok 4)); [| |reflexivity]; [|rewrite p4; unfold len32, zlen in *; lia].
    unfold zlen. rewrite Nat2Z.id. apply (proj1 (many_ok p f W (length l) C)). auto.
  - intros b l r B H. unfold get_vec in H. eapply bwd in H; [|apply num_ok|exact B]. destruct H as (n & b1 & N & -> & B1 & H). rewrite p4 in N.
    apply (proj2 (many_ok p f W _ C)) in H; [|exact B1]. destruct H as ([L F] & -> & B2). unfold put_vec, len32, zlen. rewrite L, Z2Nat.id by lia.
    split; [split; [lia|assumption]|]. split; [apply app_assoc|assumption].
Qed.
Lemma bytes_ok : codec_ok get_bytes put_bytes (fun l => len32 l /\ is_bytes l).
Proof.
  split.
  - intros l r [H F]. unfold get_bytes, put_bytes. rewrite <- app_assoc. erewrite (fwd _ _ _ _ (zlen l) _ _ (num_ok 4)); [| |reflexivity]; [|rewrite p4; unfold len32, zlen in *; lia].
    unfold zlen. rewrite Nat2Z.id. apply (proj1 (raw_ok (length l))). auto.
  - intros b l r B H. unfold get_bytes in H. eapply bwd in H; [|apply num_ok|exact B]. destruct H as (n & b1 & N & -> & B1 & H). rewrite p4 in N.
    apply (proj2 (raw_ok _)) in H; [|exact B1]. destruct H as ([L F] & -> & B2). unfold put_bytes, len32, zlen. rewrite L, Z2Nat.id by lia.
    split; [split; [lia|assumption]|]. split; [apply app_assoc|assumption].
Qed.
Lemma tag_ok v : 0 <= v < B64 -> codec_ok (get_tag v) (fun _ => le 8 v) (fun _ => True).
Proof.
  intros V. split.
  - intros [] r _. unfold get_tag. erewrite (fwd _ _ _ _ v _ r (num_ok 8)); [| |reflexivity]; [rewrite Z.eqb_refl; reflexivity|rewrite p8; assumption].
  - intros b [] r B H. unfold get_tag in H. eapply bwd in H; [|apply num_ok|exact B]. destruct H as (t & b1 & _ & -> & B1 & H).
    destruct (Z.eqb_spec t v) as [->|]; [|discriminate]. injection H as <-. auto.
Qed.

(** ** The pool's types *)
Section Types.
Variable e : penv.
Definition wf_name (b : bytes) : Prop := (len32 b /\ is_bytes b) /\ pe_utf8 e b = true.
Lemma string_ok : codec_ok (get_string e) put_bytes wf_name.
Proof.
  split.
  - intros x r [H U]. unfold get_string. erewrite (fwd _ _ _ _ x _ r bytes_ok); [|assumption|reflexivity]. rewrite U. reflexivity.
  - intros b x r B H. unfold get_string in H. eapply bwd in H; [|apply bytes_ok|exact B]. destruct H as (y & b1 & Y & -> & B1 & H).
    destruct (pe_utf8 e y) eqn:U; [|discriminate]. injection H as <- <-. unfold wf_name. auto.
Qed.
Definition wf_asset (a : asset) : Prop := wf_key (as_mint a) /\ wf_key (as_vault a).
Lemma asset_ok : codec_ok get_asset put_asset wf_asset.
Proof.
  split.
  - intros [m v] r [H1 H2]. unfold get_asset, put_asset. cbn [as_mint as_vault] in *. rewrite <- app_assoc.
    erewrite (fwd _ _ _ _ m _ _ key_ok); [|assumption|reflexivity]. erewrite (fwd _ _ _ _ v _ _ key_ok); [|assumption|reflexivity]. reflexivity.
  - intros b a r B H. unfold get_asset in H. eapply bwd in H; [|apply key_ok|exact B]. destruct H as (m & b1 & M & -> & B1 & H).
    eapply bwd in H; [|apply key_ok|exact B1]. destruct H as (v & b2 & V & -> & B2 & H). injection H as <- <-. unfold put_asset, wf_asset. cbn [as_mint as_vault].
    rewrite <- app_assoc. auto.
Qed.
Definition wf_param (p : Z * bool) : Prop := wf_key (fst p).
Lemma param_ok : codec_ok get_param put_param wf_param.
Proof.
  split.
  - intros [m v] r H1. unfold get_param, put_param. cbn [fst snd] in *. rewrite <- app_assoc.
    erewrite (fwd _ _ _ _ m _ _ key_ok); [|exact H1|reflexivity]. erewrite (fwd _ _ _ _ v _ _ bool_ok); [|exact I|reflexivity]. reflexivity.
  - intros b a r B H. unfold get_param in H. eapply bwd in H; [|apply key_ok|exact B]. destruct H as (m & b1 & M & -> & B1 & H).
    eapply bwd in H; [|apply bool_ok|exact B1]. destruct H as (v & b2 & V & -> & B2 & H). injection H as <- <-. unfold put_param, wf_param. cbn [fst snd].
    rewrite <- app_assoc. auto.
Qed.
Record wf_state (st : pstate) : Prop := mkWfState {
  ws_mint : wf_key (ps_mint st); ws_assets : len32 (ps_assets st) /\ Forall wf_asset (ps_assets st); ws_signer : wf_key (ps_signer st);
  ws_nonce : 0 <= ps_nonce st < 256; ws_params : len32 (ps_params st) /\ Forall wf_param (ps_params st); ws_name : wf_name (ps_name st);
  ws_lqd : wf_key (ps_lqd st); ws_init : wf_key (ps_init st); ws_rate : 0 <= ps_rate st < 4294967296;
  ws_admin : forall a, ps_admin st = Some a -> wf_key a; ws_custom : len32 (ps_custom st) /\ is_bytes (ps_custom st) }.
Lemma state_ok : codec_ok (get_state e) put_state wf_state.
Proof.
  assert (T : 0 <= POOL_STATE_TAG < B64) by (unfold POOL_STATE_TAG; lia).
  split.
  - intros st r []. unfold get_state, put_state. rewrite <- !app_assoc.
    erewrite (fwd _ _ _ _ tt _ _ (tag_ok _ T)); [|exact I|reflexivity].
    erewrite (fwd _ _ _ _ (ps_mint st) _ _ key_ok); [|assumption|reflexivity].
    erewrite (fwd _ _ _ _ (ps_assets st) _ _ (vec_ok _ _ _ asset_ok)); [|assumption|reflexivity].
    erewrite (fwd _ _ _ _ (ps_signer st) _ _ key_ok); [|assumption|reflexivity].
    erewrite (fwd _ _ _ _ (ps_nonce st) _ _ (num_ok 1)); [|rewrite p1; assumption|reflexivity].
    erewrite (fwd _ _ _ _ (ps_params st) _ _ (vec_ok _ _ _ param_ok)); [|assumption|reflexivity].
    erewrite (fwd _ _ _ _ (ps_name st) _ _ string_ok); [|assumption|reflexivity].
    erewrite (fwd _ _ _ _ (ps_lqd st) _ _ key_ok); [|assumption|reflexivity].
    erewrite (fwd _ _ _ _ (ps_init st) _ _ key_ok); [|assumption|reflexivity].
    erewrite (fwd _ _ _ _ (ps_rate st) _ _ (num_ok 4)); [|rewrite p4; assumption|reflexivity].
    erewrite (fwd _ _ _ _ (ps_admin st) _ _ (option_ok _ _ _ key_ok)); [|assumption|reflexivity].
    erewrite (fwd _ _ _ _ (ps_custom st) _ _ bytes_ok); [|assumption|reflexivity]. destruct st; reflexivity.
  - intros b st r B H. unfold get_state in H.
    eapply bwd in H; [|apply (tag_ok _ T)|exact B]. destruct H as ([] & b1 & _ & -> & B1 & H).
    eapply bwd in H; [|apply key_ok|exact B1]. destruct H as (v1 & b2 & V1 & -> & B2 & H).
    eapply bwd in H; [|apply (vec_ok _ _ _ asset_ok)|exact B2]. destruct H as (v2 & b3 & V2 & -> & B3 & H).
    eapply bwd in H; [|apply key_ok|exact B3]. destruct H as (v3 & b4 & V3 & -> & B4 & H).
    eapply bwd in H; [|apply (num_ok 1)|exact B4]. destruct H as (v4 & b5 & V4 & -> & B5 & H). rewrite p1 in V4.
    eapply bwd in H; [|apply (vec_ok _ _ _ param_ok)|exact B5]. destruct H as (v5 & b6 & V5 & -> & B6 & H).
    eapply bwd in H; [|apply string_ok|exact B6]. destruct H as (v6 & b7 & V6 & -> & B7 & H).
    eapply bwd in H; [|apply key_ok|exact B7]. destruct H as (v7 & b8 & V7 & -> & B8 & H).
    eapply bwd in H; [|apply key_ok|exact B8]. destruct H as (v8 & b9 & V8 & -> & B9 & H).
    eapply bwd in H; [|apply (num_ok 4)|exact B9]. destruct H as (v9 & b10 & V9 & -> & B10 & H). rewrite p4 in V9.
    eapply bwd in H; [|apply (option_ok _ _ _ key_ok)|exact B10]. destruct H as (v10 & b11 & V10 & -> & B11 & H).
    eapply bwd in H; [|apply bytes_ok|exact B11]. destruct H as (v11 & b12 & V11 & -> & B12 & H). injection H as <- <-.
    split; [constructor; cbn [ps_mint ps_assets ps_signer ps_nonce ps_params ps_name ps_lqd ps_init ps_rate ps_admin ps_custom]; assumption|].
    split; [|assumption]. unfold put_state. cbn [ps_mint ps_assets ps_signer ps_nonce ps_params ps_name ps_lqd ps_init ps_rate ps_admin ps_custom]. rewrite <- !app_assoc. reflexivity.
Qed.

(** ** Requests *)
Definition put_action (a : action) : bytes :=
  match a with Create n => le 1 0 ++ le 8 n | Redeem n => le 1 1 ++ le 8 n | Swap l => le 1 2 ++ put_vec (le 8) l end.
Definition wf_action (a : action) : Prop :=
  match a with Create n | Redeem n => u64 n | Swap l => len32 l /\ Forall u64 l end.
Lemma vec_ok' : codec_ok (get_vec (get_num 8)) (put_vec (le 8)) (fun l => len32 l /\ Forall u64 l).
Proof. exact (vec_ok _ _ _ (num_ok 8)). Qed.
Lemma action_ok : codec_ok get_action put_action wf_action.
Proof.
  split.
  - intros a r H. unfold get_action, put_action. destruct a; cbn [wf_action] in H; rewrite <- app_assoc; erewrite (fwd _ _ _ _ _ _ _ (num_ok 1)); [| |reflexivity| | |reflexivity| | |reflexivity]; try (rewrite p1; lia);
      change (0 =? 0) with true; change (1 =? 0) with false; change (1 =? 1) with true; change (2 =? 0) with false; change (2 =? 1) with false; change (2 =? 2) with true; cbv iota.
    + erewrite (fwd _ _ _ _ n _ r (num_ok 8)); [reflexivity| |reflexivity]. rewrite p8; exact H.
    + erewrite (fwd _ _ _ _ n _ r (num_ok 8)); [reflexivity| |reflexivity]. rewrite p8; exact H.
    + erewrite (fwd _ _ _ _ l _ r vec_ok'); [reflexivity| |reflexivity]. exact H.
  - intros b a r B H. unfold get_action in H. eapply bwd in H; [|apply (num_ok 1)|exact B]. destruct H as (t & b1 & _ & -> & B1 & H).
    destruct (Z.eqb_spec t 0) as [->|]; [|destruct (Z.eqb_spec t 1) as [->|]; [|destruct (Z.eqb_spec t 2) as [->|]; [|discriminate]]].
    + eapply bwd in H; [|apply (num_ok 8)|exact B1]. destruct H as (n' & b2 & N & -> & B2 & H). injection H as <- <-. rewrite p8 in N. split; [exact N|]. split; [unfold put_action; rewrite <- app_assoc; reflexivity|assumption].
    + eapply bwd in H; [|apply (num_ok 8)|exact B1]. destruct H as (n' & b2 & N & -> & B2 & H). injection H as <- <-. rewrite p8 in N. split; [exact N|]. split; [unfold put_action; rewrite <- app_assoc; reflexivity|assumption].
    + eapply bwd in H; [|apply vec_ok'|exact B1]. destruct H as (n' & b2 & N & -> & B2 & H). injection H as <- <-. split; [exact N|]. split; [unfold put_action; rewrite <- app_assoc; reflexivity|assumption].
Qed.
Definition put_init (q : init_req) : bytes := le 1 (iq_nonce q) ++ le 1 (iq_assets q) ++ put_bytes (iq_name q) ++ le 4 (iq_rate q) ++ put_bytes (iq_custom q).
Definition wf_init (q : init_req) : Prop :=
  0 <= iq_nonce q < 256 /\ 0 <= iq_assets q < 256 /\ wf_name (iq_name q) /\ 0 <= iq_rate q < 4294967296 /\ (len32 (iq_custom q) /\ is_bytes (iq_custom q)).
Lemma init_ok : codec_ok (get_init e) put_init wf_init.
Proof.
  split.
  - intros q r (H1 & H2 & H3 & H4 & H5). unfold get_init, put_init. rewrite <- !app_assoc.
    erewrite (fwd _ _ _ _ (iq_nonce q) _ _ (num_ok 1)); [|rewrite p1; assumption|reflexivity].
    erewrite (fwd _ _ _ _ (iq_assets q) _ _ (num_ok 1)); [|rewrite p1; assumption|reflexivity].
    erewrite (fwd _ _ _ _ (iq_name q) _ _ string_ok); [|assumption|reflexivity].
    erewrite (fwd _ _ _ _ (iq_rate q) _ _ (num_ok 4)); [|rewrite p4; assumption|reflexivity].
    erewrite (fwd _ _ _ _ (iq_custom q) _ _ bytes_ok); [|assumption|reflexivity]. destruct q; reflexivity.
  - intros b q r B H. unfold get_init in H.
    eapply bwd in H; [|apply (num_ok 1)|exact B]. destruct H as (v1 & b1 & V1 & -> & B1 & H). rewrite p1 in V1.
    eapply bwd in H; [|apply (num_ok 1)|exact B1]. destruct H as (v2 & b2 & V2 & -> & B2 & H). rewrite p1 in V2.
    eapply bwd in H; [|apply string_ok|exact B2]. destruct H as (v3 & b3 & V3 & -> & B3 & H).
    eapply bwd in H; [|apply (num_ok 4)|exact B3]. destruct H as (v4 & b4 & V4 & -> & B4 & H). rewrite p4 in V4.
    eapply bwd in H; [|apply bytes_ok|exact B4]. destruct H as (v5 & b5 & V5 & -> & B5 & H). injection H as <- <-.
    unfold wf_init, put_init. cbn [iq_nonce iq_assets iq_name iq_rate iq_custom]. rewrite <- !app_assoc. auto 10.
Qed.
Definition put_request (q : request) : bytes :=
  le 8 POOL_REQUEST_TAG ++ match q with RInit i => le 1 0 ++ put_init i | RGetBasket a => le 1 1 ++ put_action a | RExecute a => le 1 2 ++ put_action a end.
Definition wf_request (q : request) : Prop := match q with RInit i => wf_init i | RGetBasket a | RExecute a => wf_action a end.
Lemma request_ok : codec_ok (get_request e) put_request wf_request.
Proof.
  assert (T : 0 <= POOL_REQUEST_TAG < B64) by (unfold POOL_REQUEST_TAG; lia).
  split.
  - intros q r H. unfold get_request, put_request. rewrite <- app_assoc. erewrite (fwd _ _ _ _ tt _ _ (tag_ok _ T)); [|exact I|reflexivity].
    destruct q; cbn [wf_request] in H; rewrite <- app_assoc; erewrite (fwd _ _ _ _ _ _ _ (num_ok 1)); [| |reflexivity| | |reflexivity| | |reflexivity]; try (rewrite p1; lia);
      change (0 =? 0) with true; change (1 =? 0) with false; change (1 =? 1) with true; change (2 =? 0) with false; change (2 =? 1) with false; change (2 =? 2) with true; cbv iota.
    + erewrite (fwd _ _ _ _ _ _ r init_ok); [reflexivity| |reflexivity]. exact H.
    + erewrite (fwd _ _ _ _ _ _ r action_ok); [reflexivity| |reflexivity]. exact H.
    + erewrite (fwd _ _ _ _ _ _ r action_ok); [reflexivity| |reflexivity]. exact H.
  - intros b a r B H. unfold get_request in H. eapply bwd in H; [|apply (tag_ok _ T)|exact B]. destruct H as ([] & b0 & _ & -> & B0 & H).
    eapply bwd in H; [|apply (num_ok 1)|exact B0]. destruct H as (t & b1 & _ & -> & B1 & H).
    destruct (Z.eqb_spec t 0) as [->|]; [|destruct (Z.eqb_spec t 1) as [->|]; [|destruct (Z.eqb_spec t 2) as [->|]; [|discriminate]]].
    + eapply bwd in H; [|apply init_ok|exact B1]. destruct H as (n' & b2 & N & -> & B2 & H). injection H as <- <-. split; [exact N|]. split; [unfold put_request; rewrite <- !app_assoc; reflexivity|assumption].
    + eapply bwd in H; [|apply action_ok|exact B1]. destruct H as (n' & b2 & N & -> & B2 & H). injection H as <- <-. split; [exact N|]. split; [unfold put_request; rewrite <- !app_assoc; reflexivity|assumption].
    + eapply bwd in H; [|apply action_ok|exact B1]. destruct H as (n' & b2 & N & -> & B2 & H). injection H as <- <-. split; [exact N|]. split; [unfold put_request; rewrite <- !app_assoc; reflexivity|assumption].
Qed.
End Types.
(** Administrative requests and the paused flag. *)
Definition put_admin (q : admin_req) : bytes :=
  le 8 ADMIN_TAG ++ match q with
  | APause => le 1 0 | AUnpause => le 1 1 | AApprove n => le 1 2 ++ le 8 n | AAddAsset => le 1 3 | ARemoveAsset => le 1 4
  | AUpdateFee n => le 1 5 ++ le 4 n | AUpdateAdmin => le 1 6 end.
Definition wf_admin (q : admin_req) : Prop := match q with AApprove n => u64 n | AUpdateFee n => 0 <= n < 4294967296 | _ => True end.
Lemma admin_ok : codec_ok get_admin put_admin wf_admin.
Proof.
  assert (T : 0 <= ADMIN_TAG < B64) by (unfold ADMIN_TAG; lia).
  split.
  - intros q r H. unfold get_admin, put_admin. rewrite <- app_assoc. erewrite (fwd _ _ _ _ tt _ _ (tag_ok _ T)); [|exact I|reflexivity].
    destruct q; cbn [wf_admin] in H; rewrite <- ?app_assoc; (erewrite (fwd _ _ _ _ _ _ _ (num_ok 1)); [|rewrite p1|reflexivity]; [|lia]); cbv [Z.eqb Pos.eqb]; try reflexivity.
    + erewrite (fwd _ _ _ _ amount _ r (num_ok 8)); [reflexivity| |reflexivity]. rewrite p8; exact H.
    + erewrite (fwd _ _ _ _ rate _ r (num_ok 4)); [reflexivity| |reflexivity]. rewrite p4; exact H.
  - intros b a r B H. unfold get_admin in H. eapply bwd in H; [|apply (tag_ok _ T)|exact B]. destruct H as ([] & b0 & _ & -> & B0 & H).
    eapply bwd in H; [|apply (num_ok 1)|exact B0]. destruct H as (t & b1 & _ & -> & B1 & H).
    repeat match type of H with (if ?x =? ?y then _ else _) _ = _ => destruct (Z.eqb_spec x y) as [->|] end; try discriminate;
      try (injection H as <- <-; split; [exact I|]; split; [reflexivity|assumption]).
    + eapply bwd in H; [|apply (num_ok 8)|exact B1]. destruct H as (n' & b2 & N & -> & B2 & H). injection H as <- <-. rewrite p8 in N. split; [exact N|]. split; [unfold put_admin; rewrite <- !app_assoc; reflexivity|assumption].
    + eapply bwd in H; [|apply (num_ok 4)|exact B1]. destruct H as (n' & b2 & N & -> & B2 & H). injection H as <- <-. rewrite p4 in N. split; [exact N|]. split; [unfold put_admin; rewrite <- !app_assoc; reflexivity|assumption].
Qed.
Lemma custom_ok : codec_ok get_custom put_custom (fun _ => True).
Proof.
  assert (T : 0 <= CUSTOM_TAG < B64) by (unfold CUSTOM_TAG; lia).
  split.
  - intros x r _. unfold get_custom, put_custom. rewrite <- app_assoc. erewrite (fwd _ _ _ _ tt _ _ (tag_ok _ T)); [|exact I|reflexivity]. apply (proj1 bool_ok). exact I.
  - intros b x r B H. unfold get_custom in H. eapply bwd in H; [|apply (tag_ok _ T)|exact B]. destruct H as ([] & b0 & _ & -> & B0 & H).
    apply (proj2 bool_ok) in H; [|assumption]. destruct H as (_ & -> & B1). split; [exact I|]. split; [unfold put_custom; rewrite <- app_assoc; reflexivity|assumption].
Qed.
Lemma whole_ok {A} (p : parser A) f W : codec_ok p f W -> (forall x, W x -> whole p (f x) = Some x) /\ (forall b x, is_bytes b -> whole p b = Some x -> W x /\ b = f x).
Proof.
  intros [C1 C2]. split.
  - intros x H. unfold whole. rewrite <- (app_nil_r (f x)), C1 by assumption. reflexivity.
  - intros b x B H. unfold whole in H. destruct (p b) as [[y [|? ?]]|] eqn:E; try discriminate. injection H as <-. destruct (C2 _ _ _ B E) as (H1 & H2 & _). rewrite app_nil_r in H2. auto.
Qed.
