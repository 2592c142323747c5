(** Pool states and requests against their tables (C49). *)
From Verif Require Import Base Fees Core Instr InstrProofs Store Borsh BorshProofs PoolStore Pool AdminPool WireSpec WireProofs PoolWireSpec.

Lemma key_fits k : wf_key k -> Forall fits1 (key_words k).
Proof.
  unfold wf_key. intros W. unfold key_words. change (2 ^ 192) with (B64 * B64 * B64). change (2 ^ 128) with (B64 * B64). change (2 ^ 64) with B64.
  constructor; [unfold fits1; cbn [fst snd]; rewrite p256_8; split; [apply Z.div_pos; lia|apply Z.div_lt_upper_bound; lia]|]. repeat (constructor; [unfold fits1; cbn [fst snd]; rewrite p256_8; apply Z.mod_pos_bound; lia|]). constructor.
Qed.
Lemma one_fits n z : 0 <= z < 256 ^ Z.of_nat n -> Forall fits1 [(n, z)].
Proof. intros Z0. constructor; [exact Z0|constructor]. Qed.
Lemma flag_fits p : fits1 (flag_field p). Proof. unfold fits1, flag_field. destruct p; cbn; lia. Qed.
Lemma list_fits {X} (f : X -> list (nat * Z)) l : len32 l -> Forall (fun x => Forall fits1 (f x)) l -> Forall fits1 (list_fields f l).
Proof. unfold len32, zlen. intros N F. constructor; [unfold fits1; cbn [fst snd]; rewrite p256_4; lia|]. apply Forall_concat, Forall_map. exact F. Qed.
Lemma text_fits b : len32 b -> is_bytes b -> Forall fits1 (text_fields b).
Proof. intros N B. apply list_fits; [exact N|]. eapply Forall_impl; [|exact B]. intros x X. apply one_fits. exact X. Qed.
Lemma list_emit {X} (f : X -> list (nat * Z)) (g : X -> bytes) l : (forall x, flat_map emit (f x) = g x) -> flat_map emit (list_fields f l) = put_vec g l.
Proof. intros F. unfold list_fields, put_vec. cbn [flat_map]. unfold emit at 1. cbn [fst snd]. f_equal. induction l as [|x r IH]; [reflexivity|]. cbn [map concat flat_map]. rewrite flat_map_app, F, IH. reflexivity. Qed.
Lemma text_emit b : is_bytes b -> flat_map emit (text_fields b) = put_bytes b.
Proof.
  intros B. unfold text_fields. rewrite (list_emit _ (le 1)) by (intros x; cbn [flat_map]; apply app_nil_r). unfold put_vec, put_bytes. f_equal. induction B as [|x r X B IH]; [reflexivity|]. change (flat_map (le 1) (x :: r)) with (le 1 x ++ flat_map (le 1) r). rewrite IH. change (le 1 x) with [x mod 256]. rewrite Z.mod_small by exact X. reflexivity.
Qed.
Lemma one_emit n z : flat_map emit [(n, z)] = le n z. Proof. cbn [flat_map]. apply app_nil_r. Qed.
Lemma state_emit e st : wf_state e st -> flat_map emit (state_fields st) = put_state st.
Proof.
  intros []. unfold state_fields, put_state. rewrite !flat_map_app, !one_emit, <- !key_emit, (text_emit _ (proj2 (proj1 ws_name))), (text_emit _ (proj2 ws_custom)).
  rewrite (list_emit _ put_asset), (list_emit _ put_param).
  - repeat (f_equal; []). f_equal. destruct (ps_admin st); cbn [put_option flat_map]; [|apply app_nil_r]. unfold emit at 1. cbn [fst snd]. rewrite <- key_emit. reflexivity.
  - intros p. rewrite flat_map_app, <- key_emit. unfold put_param, put_bool, flag_field. rewrite one_emit. reflexivity.
  - intros a. rewrite flat_map_app, <- !key_emit. reflexivity.
Qed.
Lemma state_fits e st : wf_state e st -> Forall fits1 (state_fields st).
Proof.
  intros []. unfold state_fields. repeat (apply Forall_app; split); try (apply key_fits; assumption); try (apply text_fits; [apply (proj1 (proj1 ws_name))|apply (proj2 (proj1 ws_name))]).
  - apply one_fits. cbn. lia.
  - apply list_fits; [exact (proj1 ws_assets)|]. eapply Forall_impl; [|exact (proj2 ws_assets)]. intros a [A1 A2]. apply Forall_app. split; apply key_fits; assumption.
  - apply one_fits. exact ws_nonce.
  - apply list_fits; [exact (proj1 ws_params)|]. eapply Forall_impl; [|exact (proj2 ws_params)]. intros p PP. apply Forall_app. split; [apply key_fits; exact PP|constructor; [apply flag_fits|constructor]].
  - apply one_fits. exact ws_rate.
  - destruct (ps_admin st); [constructor; [unfold fits1; cbn; lia|apply key_fits; auto]|apply one_fits; cbn; lia].
  - apply text_fits; [exact (proj1 ws_custom)|exact (proj2 ws_custom)].
Qed.
Lemma action_emit a : flat_map emit (action_fields a) = put_action a.
Proof. destruct a; cbn [action_fields put_action]; [cbn [flat_map]; rewrite app_nil_r; reflexivity..|]. cbn [flat_map]. rewrite (list_emit _ (le 8)) by (intros x; apply one_emit). reflexivity. Qed.
Lemma action_fits a : wf_action a -> Forall fits1 (action_fields a).
Proof.
  destruct a; cbn [wf_action action_fields]; unfold u64; intros W.
  - constructor; [unfold fits1; cbn; lia|]. apply one_fits. rewrite p256_8. exact W.
  - constructor; [unfold fits1; cbn; lia|]. apply one_fits. rewrite p256_8. exact W.
  - constructor; [unfold fits1; cbn; lia|]. apply list_fits; [exact (proj1 W)|]. eapply Forall_impl; [|exact (proj2 W)]. intros n N. apply one_fits. rewrite p256_8. exact N.
Qed.
Lemma request_emit e q : wf_request e q -> flat_map emit (request_fields q) = put_request q.
Proof.
  intros W. unfold request_fields, put_request. cbn [flat_map]. unfold emit at 1. cbn [fst snd]. f_equal. destruct q as [r|a|a]; [|cbn [flat_map]; rewrite action_emit; reflexivity..]. destruct W as (_ & _ & N & _ & C).
  rewrite !flat_map_app, one_emit, (text_emit _ (proj2 (proj1 N))), (text_emit _ (proj2 C)). cbn [flat_map]. unfold emit. cbn [fst snd]. unfold put_init. rewrite app_nil_r, <- !app_assoc. reflexivity.
Qed.
Lemma request_fits e q : wf_request e q -> Forall fits1 (request_fields q).
Proof.
  intros W. unfold request_fields. constructor; [unfold fits1; cbn; lia|]. destruct q as [r|a|a]; [|constructor; [unfold fits1; cbn; lia|apply action_fits; exact W]..]. destruct W as (W1 & W2 & N & W3 & C).
  apply Forall_app. split; [constructor; [unfold fits1; cbn; lia|constructor; [exact W1|apply one_fits; exact W2]]|]. apply Forall_app. split; [apply text_fits; [exact (proj1 (proj1 N))|exact (proj2 (proj1 N))]|]. apply Forall_app. split; [apply one_fits; exact W3|apply text_fits; [exact (proj1 C)|exact (proj2 C)]].
Qed.
Lemma admin_emit q : flat_map emit (admin_fields q) = put_admin q.
Proof. unfold admin_fields, put_admin. cbn [flat_map]. unfold emit at 1. cbn [fst snd]. f_equal. destruct q; cbn [flat_map]; rewrite app_nil_r; reflexivity. Qed.
Lemma admin_fits q : wf_admin q -> Forall fits1 (admin_fields q).
Proof.
  intros W. unfold admin_fields. constructor; [unfold fits1; cbn; lia|]. destruct q; cbn [wf_admin] in W; unfold u64 in W; try (apply one_fits; cbn; lia).
  - constructor; [unfold fits1; cbn; lia|]. apply one_fits. rewrite p256_8. exact W.
  - constructor; [unfold fits1; cbn; lia|]. apply one_fits. rewrite p256_4. exact W.
Qed.
Theorem state_format e b st r : is_bytes b -> (get_state e b = Some (st, r) <-> wf_state e st /\ exists x, b = x ++ r /\ written (state_fields st) x).
Proof.
  intros B. split.
  - intros G. destruct (proj2 (state_ok e) b st r B G) as (W & EB & _). split; [exact W|]. exists (put_state st). split; [exact EB|]. rewrite <- (state_emit e st W). apply written_emit, (state_fits e). exact W.
  - intros (W & x & -> & WR). apply Forall_app in B. destruct B as [BX _]. rewrite (written_is _ x BX WR), (state_emit e st W). apply (proj1 (state_ok e)). exact W.
Qed.
Theorem request_format e b q : is_bytes b -> (whole (get_request e) b = Some q <-> wf_request e q /\ written (request_fields q) b).
Proof.
  intros B. split.
  - intros G. destruct (proj2 (whole_ok _ _ _ (request_ok e)) b q B G) as [W EB]. split; [exact W|]. rewrite EB, <- (request_emit e q W). apply written_emit, (request_fits e). exact W.
  - intros (W & WR). rewrite (written_is _ b B WR), (request_emit e q W). apply (proj1 (whole_ok _ _ _ (request_ok e))). exact W.
Qed.
Theorem admin_format b q : is_bytes b -> (whole get_admin b = Some q <-> wf_admin q /\ written (admin_fields q) b).
Proof.
  intros B. split.
  - intros G. destruct (proj2 (whole_ok _ _ _ admin_ok) b q B G) as [W EB]. split; [exact W|]. rewrite EB, <- admin_emit. apply written_emit, admin_fits. exact W.
  - intros (W & WR). rewrite (written_is _ b B WR), admin_emit. apply (proj1 (whole_ok _ _ _ admin_ok)). exact W.
Qed.
Theorem paused_format st p : is_bytes (ps_custom st) -> (read_paused st = Ok p <-> written (paused_fields p) (ps_custom st)).
Proof.
  intros B. unfold read_paused.
  assert (EM : flat_map emit (paused_fields p) = put_custom p) by (unfold paused_fields, put_custom, put_bool, flag_field; cbn [flat_map]; unfold emit; cbn [fst snd]; rewrite app_nil_r; reflexivity).
  split.
  - intros G. destruct (whole get_custom (ps_custom st)) as [q|] eqn:W; [|discriminate]. injection G as ->. destruct (proj2 (whole_ok _ _ _ custom_ok) _ _ B W) as [_ EB]. rewrite EB, <- EM. apply written_emit. constructor; [unfold fits1; cbn; lia|]. constructor; [apply flag_fits|constructor].
  - intros WR. rewrite (written_is _ _ B WR), EM, (proj1 (whole_ok _ _ _ custom_ok) p I). reflexivity.
Qed.
