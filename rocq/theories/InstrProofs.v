(** Proofs about the instruction encoding. *)
From Verif Require Import Base BaseProofs Codec Core Instr.

Definition is_bytes (b : bytes) : Prop := Forall (fun x => 0 <= x < 256) b.

Lemma le_len n z : length (le n z) = n.
Proof. revert z; induction n; intros; cbn; auto. Qed.
Lemma pow256_S n : 256 ^ Z.of_nat (S n) = 256 * 256 ^ Z.of_nat n.
Proof. rewrite Nat2Z.inj_succ, Z.pow_succ_r by lia. reflexivity. Qed.
Lemma unle_le n z : 0 <= z < 256 ^ Z.of_nat n -> unle (le n z) = z.
Proof.
  revert z; induction n; intros z H; [cbn in *; lia|]. rewrite pow256_S in H. cbn [le unle].
  rewrite IHn; [pose proof (Z.div_mod z 256); lia|]. split; [apply Z.div_pos; lia|]. apply Z.div_lt_upper_bound; lia.
Qed.
Lemma unle_bound b : is_bytes b -> 0 <= unle b < 256 ^ Z.of_nat (length b).
Proof.
  induction b as [|x r IH]; intros H; [cbn; lia|]. inversion H as [|? ? H1 H2]; subst. specialize (IH H2). cbn [unle length]. rewrite pow256_S. lia.
Qed.
Lemma le_unle b : is_bytes b -> le (length b) (unle b) = b.
Proof.
  induction b as [|x r IH]; intros H; [reflexivity|]. inversion H as [|? ? H1 H2]; subst. cbn [unle length le].
  replace ((x + 256 * unle r) mod 256) with x by (rewrite Z.mul_comm, Z.mod_add, Z.mod_small; lia).
  replace ((x + 256 * unle r) / 256) with (unle r) by (rewrite Z.mul_comm, Z.div_add, Z.div_small; lia). rewrite IH by assumption. reflexivity.
Qed.
Lemma le_bytes n z : is_bytes (le n z).
Proof. revert z; induction n; intros; cbn; constructor; [apply Z.mod_pos_bound; lia|apply IHn]. Qed.
Lemma is_bytes_skipn n b : is_bytes b -> is_bytes (skipn n b).
Proof. intros H. unfold is_bytes in *. rewrite Forall_forall in *. intros x Hx. apply H. rewrite <- (firstn_skipn n b). apply in_or_app. right. assumption. Qed.
Lemma is_bytes_firstn n b : is_bytes b -> is_bytes (firstn n b).
Proof. intros H. unfold is_bytes in *. rewrite Forall_forall in *. intros x Hx. apply H. rewrite <- (firstn_skipn n b). apply in_or_app. left. assumption. Qed.
Lemma num_bound b off n : is_bytes b -> 0 <= num b off n < 256 ^ Z.of_nat n.
Proof.
  intros H. unfold num. pose proof (unle_bound (firstn n (skipn off b)) (is_bytes_firstn _ _ (is_bytes_skipn _ _ H))) as U.
  split; [lia|]. eapply Z.lt_le_trans; [apply U|]. apply Z.pow_le_mono_r; [lia|]. rewrite firstn_length. lia.
Qed.
(** Reading a packed layout. *)
Lemma num_here n z r : 0 <= z < 256 ^ Z.of_nat n -> num (le n z ++ r) 0 n = z.
Proof. intros H. unfold num. cbn [skipn]. rewrite firstn_app, le_len, Nat.sub_diag, firstn_O, app_nil_r, firstn_all2 by (rewrite le_len; lia). apply unle_le. assumption. Qed.
Lemma num_next n z r off k : (n <= off)%nat -> num (le n z ++ r) off k = num r (off - n) k.
Proof. intros H. unfold num. rewrite skipn_app, skipn_all2, le_len by (rewrite le_len; lia). reflexivity. Qed.
Lemma num_last n z : 0 <= z < 256 ^ Z.of_nat n -> num (le n z) 0 n = z.
Proof. intros H. rewrite <- (app_nil_r (le n z)). apply num_here. assumption. Qed.
Lemma num_past n z off k : num (le n z) (n + off) k = num [] off k.
Proof. rewrite <- (app_nil_r (le n z)), num_next by lia. f_equal. lia. Qed.
(** Rebuilding the bytes from what was read. *)
Lemma step_le n b : is_bytes b -> (n <= length b)%nat -> le n (num b 0 n) ++ skipn n b = b.
Proof.
  intros H L. unfold num. cbn [skipn]. pose proof (le_unle (firstn n b) (is_bytes_firstn n _ H)) as E.
  rewrite firstn_length, Nat.min_l in E by assumption. rewrite E. apply firstn_skipn.
Qed.
Lemma skipn_skipn {X} a c (l : list X) : skipn a (skipn c l) = skipn (c + a) l.
Proof. revert l; induction c; intros l; [reflexivity|]. destruct l; [destruct a; reflexivity|]. cbn [skipn Nat.add]. apply IHc. Qed.
Lemma num_skip b n off k : num (skipn n b) off k = num b (n + off) k.
Proof. unfold num. rewrite skipn_skipn. reflexivity. Qed.
Lemma take_le b off n : is_bytes b -> (off + n <= length b)%nat -> skipn off b = le n (num b off n) ++ skipn (off + n) b.
Proof.
  intros H L. rewrite <- (step_le n (skipn off b)) at 1.
  - rewrite num_skip, Nat.add_0_r, skipn_skipn. reflexivity.
  - apply is_bytes_skipn. assumption.
  - rewrite skipn_length. lia.
Qed.
Lemma p256_1 : 256 ^ Z.of_nat 1 = 256. Proof. reflexivity. Qed.
Lemma p256_2 : 256 ^ Z.of_nat 2 = 65536. Proof. reflexivity. Qed.
Lemma p256_4 : 256 ^ Z.of_nat 4 = 4294967296. Proof. reflexivity. Qed.
Lemma p256_8 : 256 ^ Z.of_nat 8 = B64. Proof. reflexivity. Qed.
Lemma p256_16 : 256 ^ Z.of_nat 16 = B128. Proof. reflexivity. Qed.
Ltac pows := rewrite ?p256_1, ?p256_2, ?p256_4, ?p256_8, ?p256_16 in *.
Ltac rd := repeat first [ rewrite num_here by (pows; lia) | rewrite num_last by (pows; lia)
                        | rewrite num_next by (cbn; lia); cbn [Nat.sub Nat.add] ].

(** ** Enums *)
Lemma side_rt s : side_from (side_to s) = Some s. Proof. destruct s; reflexivity. Qed.
Lemma ot_rt o : ot_from (ot_to o) = Some o. Proof. destruct o; reflexivity. Qed.
Lemma st_rt o : st_of_u8 (st_to_u8 o) = Some o. Proof. destruct o; reflexivity. Qed.
Lemma side_lt s : 0 <= side_to s < 2. Proof. destruct s; cbn; lia. Qed.
Lemma ot_lt s : 0 <= ot_to s < 3. Proof. destruct s; cbn; lia. Qed.
Lemma st_lt s : 0 <= st_to_u8 s < 3. Proof. destruct s; cbn; lia. Qed.
Lemma side_inv z s : side_from z = Some s -> side_to s = z.
Proof. unfold side_from. destruct (Z.eqb_spec z 0); [intros [= <-]; cbn; lia|]. destruct (Z.eqb_spec z 1); [intros [= <-]; cbn; lia|discriminate]. Qed.
Lemma ot_inv z s : ot_from z = Some s -> ot_to s = z.
Proof.
  unfold ot_from. destruct (Z.eqb_spec z 0); [intros [= <-]; cbn; lia|]. destruct (Z.eqb_spec z 1); [intros [= <-]; cbn; lia|].
  destruct (Z.eqb_spec z 2); [intros [= <-]; cbn; lia|discriminate].
Qed.
Lemma st_inv z s : st_of_u8 z = Some s -> st_to_u8 s = z.
Proof.
  unfold st_of_u8. destruct (Z.eqb_spec z 0); [intros [= <-]; cbn; lia|]. destruct (Z.eqb_spec z 1); [intros [= <-]; cbn; lia|].
  destruct (Z.eqb_spec z 2); [intros [= <-]; cbn; lia|discriminate].
Qed.
Lemma nonzero_ok z : nz64 z -> nonzero z = Some z.
Proof. unfold nz64, nonzero. intros H. replace (z =? 0) with false by lia. reflexivity. Qed.
Lemma nonzero_inv z x : nonzero z = Some x -> x = z /\ z <> 0.
Proof. unfold nonzero. destruct (Z.eqb_spec z 0); [discriminate|]. intros [= <-]. auto. Qed.
Lemma i64_rt z : - (I64_MAX + 1) <= z <= I64_MAX -> i64_of (z mod B64) = z.
Proof.
  unfold i64_of, I64_MAX. intros H. destruct (Z_lt_le_dec z 0).
  - rewrite <- (Z.mod_unique z B64 (-1) (z + B64)) by lia. replace (_ <? _) with false by lia. lia.
  - rewrite Z.mod_small by lia. replace (_ <? _) with true by lia. reflexivity.
Qed.
Lemma i64_inv u : 0 <= u < B64 -> - (I64_MAX + 1) <= i64_of u <= I64_MAX /\ i64_of u mod B64 = u.
Proof.
  unfold i64_of, I64_MAX. intros H. destruct (Z.ltb_spec u (9223372036854775807 + 1)).
  - split; [lia|apply Z.mod_small; lia].
  - split; [lia|]. symmetry. apply (Z.mod_unique (u - B64) B64 (-1) u); lia.
Qed.

(** ** Orders *)
Ltac lens := repeat (rewrite ?app_length, ?le_len, ?skipn_length, ?firstn_length in * ).
Lemma pack_v3_len x : length (pack_v3 x) = 54%nat.
Proof. unfold pack_v3. lens. reflexivity. Qed.
Lemma v3_rt x r : wf_v3 x -> unpack_v3 (pack_v3 x ++ r) = Some x.
Proof.
  intros (W1 & W2 & W3 & W4 & W5 & W6). pose proof (side_lt (oi_side x)). pose proof (st_lt (oi_st x)). pose proof (ot_lt (oi_ot x)).
  pose proof (Z.mod_pos_bound (oi_max_ts x) B64 ltac:(lia)). unfold pack_v3, unpack_v3, nz64, u64, u16 in *. rewrite <- !app_assoc. rd.
  rewrite side_rt, st_rt, ot_rt, i64_rt, !nonzero_ok by (unfold nz64; lia). cbn [obind]. destruct x; reflexivity.
Qed.
Lemma v3_inv b x : is_bytes b -> (54 <= length b)%nat -> unpack_v3 b = Some x -> wf_v3 x /\ pack_v3 x = firstn 54 b.
Proof.
  intros HB L. unfold unpack_v3, obind.
  destruct (side_from (num b 0 4)) eqn:E1; [|discriminate]. apply side_inv in E1.
  destruct (nonzero (num b 4 8)) eqn:E2; [|discriminate]. apply nonzero_inv in E2.
  destruct (nonzero (num b 12 8)) eqn:E3; [|discriminate]. apply nonzero_inv in E3.
  destruct (nonzero (num b 20 8)) eqn:E4; [|discriminate]. apply nonzero_inv in E4.
  destruct (st_of_u8 (num b 28 4)) eqn:E5; [|discriminate]. apply st_inv in E5.
  destruct (ot_from (num b 32 4)) eqn:E6; [|discriminate]. apply ot_inv in E6. intros [= <-].
  destruct E2 as [-> N2], E3 as [-> N3], E4 as [-> N4].
  pose proof (num_bound b 4 8 HB) as B1. pose proof (num_bound b 12 8 HB) as B2. pose proof (num_bound b 20 8 HB) as B3. pose proof (num_bound b 36 8 HB) as B4.
  pose proof (num_bound b 44 2 HB) as B5. pose proof (num_bound b 46 8 HB) as B6. pows. destruct (i64_inv _ B6) as [I1 I2].
  split.
  - unfold wf_v3, nz64, u64, u16. cbn [oi_price oi_qty oi_pc oi_cid oi_limit oi_max_ts].
    split; [lia|split; [lia|split; [lia|split; [lia|split; [lia|exact I1]]]]].
  - unfold pack_v3. cbn [oi_side oi_price oi_qty oi_pc oi_st oi_ot oi_cid oi_limit oi_max_ts]. rewrite I2, E1, E5, E6.
    apply (app_inv_tail (skipn 54 b)). rewrite firstn_skipn. rewrite <- !app_assoc.
    transitivity (skipn 0 b); [|reflexivity].
    rewrite (take_le b 0 4), (take_le b (0 + 4) 8), (take_le b (0 + 4 + 8) 8), (take_le b (0 + 4 + 8 + 8) 8), (take_le b (0 + 4 + 8 + 8 + 8) 4),
      (take_le b (0 + 4 + 8 + 8 + 8 + 4) 4), (take_le b (0 + 4 + 8 + 8 + 8 + 4 + 4) 8), (take_le b (0 + 4 + 8 + 8 + 8 + 4 + 4 + 8) 2),
      (take_le b (0 + 4 + 8 + 8 + 8 + 4 + 4 + 8 + 2) 8) by (try assumption; cbn; lia). reflexivity.
Qed.
Lemma pack_take_len x : length (pack_take x) = 46%nat.
Proof. unfold pack_take. lens. reflexivity. Qed.
Lemma take_rt x r : wf_take x -> unpack_take (pack_take x ++ r) = Some x.
Proof.
  intros (W1 & W2 & W3 & W4 & W5 & W6). pose proof (side_lt (ti_side x)). unfold pack_take, unpack_take, nz64, u64, u16 in *. rewrite <- !app_assoc. rd.
  rewrite side_rt, !nonzero_ok by (unfold nz64; lia). cbn [obind]. destruct x; reflexivity.
Qed.
Lemma take_inv b x : is_bytes b -> length b = 46%nat -> unpack_take b = Some x -> wf_take x /\ pack_take x = b.
Proof.
  intros HB L. unfold unpack_take, obind.
  destruct (side_from (num b 0 4)) eqn:E1; [|discriminate]. apply side_inv in E1.
  destruct (nonzero (num b 4 8)) eqn:E2; [|discriminate]. apply nonzero_inv in E2.
  destruct (nonzero (num b 12 8)) eqn:E3; [|discriminate]. apply nonzero_inv in E3.
  destruct (nonzero (num b 20 8)) eqn:E4; [|discriminate]. apply nonzero_inv in E4. intros [= <-].
  destruct E2 as [-> N2], E3 as [-> N3], E4 as [-> N4].
  pose proof (num_bound b 4 8 HB) as B1. pose proof (num_bound b 12 8 HB) as B2. pose proof (num_bound b 20 8 HB) as B3. pose proof (num_bound b 28 8 HB) as B4.
  pose proof (num_bound b 36 8 HB) as B5. pose proof (num_bound b 44 2 HB) as B6. pows.
  split.
  - unfold wf_take, nz64, u64, u16. cbn [ti_price ti_qty ti_pc ti_min_coin ti_min_pc ti_limit].
    split; [lia|split; [lia|split; [lia|split; [lia|split; [lia|lia]]]]].
  - unfold pack_take. cbn [ti_side ti_price ti_qty ti_pc ti_min_coin ti_min_pc ti_limit]. rewrite E1.
    transitivity (skipn 0 b); [|reflexivity].
    rewrite (take_le b 0 4), (take_le b (0 + 4) 8), (take_le b (0 + 4 + 8) 8), (take_le b (0 + 4 + 8 + 8) 8), (take_le b (0 + 4 + 8 + 8 + 8) 8),
      (take_le b (0 + 4 + 8 + 8 + 8 + 8) 8), (take_le b (0 + 4 + 8 + 8 + 8 + 8 + 8) 2) by (try assumption; cbn; lia).
    rewrite (skipn_all2 b) by (cbn; lia). rewrite app_nil_r. reflexivity.
Qed.
Lemma pack_v1_len x : length (pack_v1 x) = 32%nat.
Proof. unfold pack_v1. lens. reflexivity. Qed.
Lemma v1_rt x r : wf_v1 x -> unpack_v1 (pack_v1 x ++ r) = Some x.
Proof.
  intros (W1 & W2 & W3). pose proof (side_lt (od_side x)). pose proof (ot_lt (od_ot x)). unfold pack_v1, unpack_v1, nz64, u64 in *. rewrite <- !app_assoc. rd.
  rewrite side_rt, ot_rt, !nonzero_ok by (unfold nz64; lia). cbn [obind]. destruct x; reflexivity.
Qed.
Lemma v1_inv b x : is_bytes b -> length b = 32%nat -> unpack_v1 b = Some x -> wf_v1 x /\ pack_v1 x = b.
Proof.
  intros HB L. unfold unpack_v1, obind.
  destruct (side_from (num b 0 4)) eqn:E1; [|discriminate]. apply side_inv in E1.
  destruct (nonzero (num b 4 8)) eqn:E2; [|discriminate]. apply nonzero_inv in E2.
  destruct (nonzero (num b 12 8)) eqn:E3; [|discriminate]. apply nonzero_inv in E3.
  destruct (ot_from (num b 20 4)) eqn:E4; [|discriminate]. apply ot_inv in E4. intros [= <-].
  destruct E2 as [-> N2], E3 as [-> N3].
  pose proof (num_bound b 4 8 HB) as B1. pose proof (num_bound b 12 8 HB) as B2. pose proof (num_bound b 24 8 HB) as B4. pows.
  split.
  - unfold wf_v1, nz64, u64. cbn [od_price od_qty od_cid]. lia.
  - unfold pack_v1. cbn [od_side od_price od_qty od_ot od_cid]. rewrite E1, E4.
    transitivity (skipn 0 b); [|reflexivity].
    rewrite (take_le b 0 4), (take_le b (0 + 4) 8), (take_le b (0 + 4 + 8) 8), (take_le b (0 + 4 + 8 + 8) 4), (take_le b (0 + 4 + 8 + 8 + 4) 8) by (try assumption; cbn; lia).
    rewrite (skipn_all2 b) by (cbn; lia). rewrite app_nil_r. reflexivity.
Qed.
(** ** Lists *)
Lemma chunks_rt xs : Forall wf_v3 xs -> unpack_chunks (length xs) (flat_map pack_v3 xs) = Some xs.
Proof.
  induction 1 as [|x r W _ IH]; [reflexivity|]. cbn [length unpack_chunks flat_map].
  rewrite firstn_app, pack_v3_len, Nat.sub_diag, firstn_O, app_nil_r, firstn_all2 by (rewrite pack_v3_len; lia).
  rewrite <- (app_nil_r (pack_v3 x)) at 1. rewrite v3_rt by assumption. cbn [obind].
  rewrite skipn_app, pack_v3_len, Nat.sub_diag, skipn_all2 by (rewrite pack_v3_len; lia). cbn [app skipn]. rewrite IH. reflexivity.
Qed.
Lemma chunks_inv n b xs : is_bytes b -> length b = (54 * n)%nat -> unpack_chunks n b = Some xs -> Forall wf_v3 xs /\ length xs = n /\ flat_map pack_v3 xs = b.
Proof.
  revert b xs; induction n; intros b xs HB L.
  - intros [= <-]. split; [constructor|]. split; [reflexivity|]. destruct b; [reflexivity|discriminate].
  - cbn [unpack_chunks]. destruct (unpack_v3 (firstn 54 b)) as [x|] eqn:E; [|discriminate]. cbn [obind].
    destruct (unpack_chunks n (skipn 54 b)) as [r|] eqn:E2; [|discriminate]. intros [= <-].
    apply v3_inv in E; [|apply is_bytes_firstn; assumption|rewrite firstn_length; lia]. destruct E as [W E].
    apply IHn in E2; [|apply is_bytes_skipn; assumption|rewrite skipn_length; lia]. destruct E2 as (F & L2 & E2).
    split; [constructor; assumption|]. split; [cbn; lia|]. cbn [flat_map]. rewrite E, E2, firstn_firstn. apply firstn_skipn.
Qed.
Lemma cids_rt l r : Forall u64 l -> unpack_cids (length l) (flat_map (le 8) l ++ r) = l.
Proof.
  induction 1 as [|x t W _ IH]; [reflexivity|]. unfold u64 in W. cbn [length unpack_cids flat_map]. rewrite <- app_assoc. rewrite num_here by (pows; lia).
  rewrite skipn_app, le_len, Nat.sub_diag, skipn_all2 by (rewrite le_len; lia). cbn [app skipn]. rewrite IH. reflexivity.
Qed.
Lemma cids_inv n b : is_bytes b -> length b = (8 * n)%nat -> Forall u64 (unpack_cids n b) /\ length (unpack_cids n b) = n /\ flat_map (le 8) (unpack_cids n b) = b.
Proof.
  revert b; induction n; intros b HB L.
  - split; [constructor|]. split; [reflexivity|]. destruct b; [reflexivity|discriminate].
  - cbn [unpack_cids flat_map length]. destruct (IHn (skipn 8 b)) as (F & L2 & E); [apply is_bytes_skipn; assumption|rewrite skipn_length; lia|].
    split; [constructor; [|assumption]|].
    + pose proof (num_bound b 0 8 HB) as B. pows. unfold u64. lia.
    + split; [lia|]. rewrite E. apply step_le; [assumption|lia].
Qed.
Lemma zeros_le n : le n 0 = repeat 0 n.
Proof. induction n; [reflexivity|]. cbn [le repeat]. change (0 mod 256) with 0. change (0 / 256) with 0. rewrite IHn. reflexivity. Qed.
Lemma zeros_cids n : flat_map (le 8) (repeat 0 n) = repeat 0 (8 * n).
Proof. induction n; [reflexivity|]. cbn [repeat flat_map]. rewrite IHn, zeros_le, <- repeat_app. f_equal. lia. Qed.
Lemma key_rt k r : 0 <= k < B128 * B128 -> key_unle (key_le k ++ r) 0 = k.
Proof.
  intros H. unfold key_unle, key_le. rewrite <- !app_assoc. cbn [Nat.add].
  pose proof (Z.mod_pos_bound k B64 ltac:(lia)). pose proof (Z.mod_pos_bound (k / B64) B64 ltac:(lia)). pose proof (Z.mod_pos_bound (k / (B64 * B64)) B64 ltac:(lia)).
  assert (0 <= k / (B64 * B64 * B64) < B64) by (split; [apply Z.div_pos; lia|apply Z.div_lt_upper_bound; lia]). rd.
  rewrite <- (Z.div_div k (B64 * B64) B64) by lia. rewrite <- (Z.div_div k B64 B64) by lia.
  pose proof (Z.div_mod k B64 ltac:(lia)). pose proof (Z.div_mod (k / B64) B64 ltac:(lia)). pose proof (Z.div_mod (k / B64 / B64) B64 ltac:(lia)). lia.
Qed.
Lemma key_inv b off : is_bytes b -> (off + 32 <= length b)%nat -> 0 <= key_unle b off < B128 * B128 /\ skipn off b = key_le (key_unle b off) ++ skipn (off + 32) b.
Proof.
  intros HB L. unfold key_unle. pose proof (num_bound b off 8 HB) as B0. pose proof (num_bound b (off + 8) 8 HB) as B1. pose proof (num_bound b (off + 16) 8 HB) as B2.
  pose proof (num_bound b (off + 24) 8 HB) as B3. pows.
  remember (num b off 8) as w0 eqn:W0. remember (num b (off + 8) 8) as w1 eqn:W1. remember (num b (off + 16) 8) as w2 eqn:W2. remember (num b (off + 24) 8) as w3 eqn:W3. split; [lia|].
  set (k := ((w0 * B64 + w1) * B64 + w2) * B64 + w3).
  assert (K1 : k / B64 = (w0 * B64 + w1) * B64 + w2) by (unfold k; rewrite Z.div_add_l, (Z.div_small w3) by lia; lia).
  assert (K2 : k / (B64 * B64) = w0 * B64 + w1) by (rewrite <- (Z.div_div k B64 B64), K1, Z.div_add_l, (Z.div_small w2) by lia; lia).
  assert (K3 : k / (B64 * B64 * B64) = w0) by (rewrite <- (Z.div_div k (B64 * B64) B64), K2, Z.div_add_l, (Z.div_small w1) by lia; lia).
  unfold key_le. rewrite K1, K2, K3.
  replace (k mod B64) with w3 by (unfold k; rewrite Z.add_comm, Z.mod_add, Z.mod_small; lia).
  replace (((w0 * B64 + w1) * B64 + w2) mod B64) with w2 by (rewrite Z.add_comm, Z.mod_add, Z.mod_small; lia).
  replace ((w0 * B64 + w1) mod B64) with w1 by (rewrite Z.add_comm, Z.mod_add, Z.mod_small; lia).
  rewrite W0, W1, W2, W3. rewrite <- !app_assoc. replace (off + 24)%nat with (off + 8 + 8 + 8)%nat by lia. replace (off + 16)%nat with (off + 8 + 8)%nat by lia.
  rewrite (take_le b off 8), (take_le b (off + 8) 8), (take_le b (off + 8 + 8) 8), (take_le b (off + 8 + 8 + 8) 8) by (assumption || lia).
  replace (off + 8 + 8 + 8 + 8)%nat with (off + 32)%nat by lia. reflexivity.
Qed.

(** ** Whole instructions *)
Lemma flat_map_len {X} (f : X -> bytes) n l : (forall x, length (f x) = n) -> length (flat_map f l) = (n * length l)%nat.
Proof. intros H. induction l; cbn [flat_map length]; [lia|]. rewrite app_length, H, IHl. lia. Qed.
Lemma tag_lt i : 0 <= tag i < 21. Proof. destruct i; cbn; lia. Qed.
Lemma body_len i : wf_instr i -> (length (body i) <= 8 + 54 * 8)%nat.
Proof.
  intros W. destruct i; cbn [body wf_instr] in *; unfold key_le; lens; rewrite ?pack_v1_len, ?pack_v3_len, ?pack_take_len;
    rewrite ?(flat_map_len (le 8) 8), ?(flat_map_len pack_v3 54) by (apply pack_v3_len || (intros; apply le_len)); try lia; cbn; lia.
Qed.
Lemma zlen_of {X} (l : list X) : zlen l = Z.of_nat (length l). Proof. reflexivity. Qed.
Theorem pack_unpack i : wf_instr i -> unpack (pack i) = Some i.
Proof.
  intros W. pose proof (body_len i W) as BL. pose proof (tag_lt i) as TL. unfold unpack.
  assert (L : zlen (pack i) = 5 + zlen (body i)) by (unfold pack; rewrite !zlen_of; lens; lia).
  replace (zlen (pack i) <? 5) with false by (rewrite L, zlen_of; lia). replace (5 + 8 + 54 * 8 <? zlen (pack i)) with false by (rewrite L, zlen_of; lia). cbn [orb].
  assert (N0 : num (pack i) 0 1 = 0) by (unfold pack; rewrite num_here by (pows; lia); reflexivity). rewrite N0. cbn [Z.eqb negb].
  assert (N1 : num (pack i) 1 4 = tag i) by (unfold pack; rewrite num_next by lia; cbn [Nat.sub]; rewrite num_here by (pows; lia); reflexivity). rewrite N1.
  assert (SK : skipn 5 (pack i) = body i) by reflexivity. rewrite SK. clear L N0 N1 SK.
  destruct i; cbn [tag body wf_instr] in *; cbn [Z.eqb Pos.eqb andb];
    repeat match goal with |- context [zlen (le ?n ?z)] => replace (zlen (le n z)) with (Z.of_nat n) by (rewrite zlen_of, le_len; reflexivity); cbn [Z.of_nat Pos.of_succ_nat Pos.succ Z.eqb Pos.eqb andb] end.
  - destruct W as (W1 & W2 & W3 & W4 & W5). unfold u64, u16 in *. replace (zlen _) with 34 by (rewrite zlen_of; lens; reflexivity). cbn [Z.eqb Pos.eqb andb]. rd. destruct ix; reflexivity.
  - replace (zlen _) with 32 by (rewrite zlen_of, pack_v1_len; reflexivity). cbn [Z.eqb Pos.eqb andb]. rewrite <- (app_nil_r (pack_v1 ix)), v1_rt by assumption. reflexivity.
  - unfold u16 in W. rd. reflexivity.
  - unfold u16 in W. rd. reflexivity.
  - destruct W as (W1 & W2 & W3). unfold u128 in *. pose proof (side_lt sd). replace (zlen _) with 53 by (rewrite zlen_of; unfold key_le; lens; reflexivity). cbn [Z.eqb Pos.eqb andb]. rd. rewrite side_rt. cbn [obind].
    replace (key_unle _ 20) with owner.
    2: { rewrite <- (key_rt owner (le 1 slot)) at 1 by assumption. unfold key_unle. rewrite !num_next by (cbn; lia). cbn [Nat.sub Nat.add]. reflexivity. }
    replace (num _ 32 1) with slot; [reflexivity|]. unfold key_le. rewrite <- !app_assoc. rd. reflexivity.
  - reflexivity.
  - unfold u64 in W. rd. reflexivity.
  - reflexivity.
  - reflexivity.
  - replace (zlen _) with 36 by (rewrite zlen_of; lens; rewrite pack_v1_len; reflexivity). cbn [Z.eqb Pos.eqb andb].
    rewrite firstn_app, pack_v1_len, Nat.sub_diag, firstn_O, app_nil_r, firstn_all2 by (rewrite pack_v1_len; lia).
    replace (unpack_v1 (pack_v1 ix)) with (Some ix) by (rewrite <- (app_nil_r (pack_v1 ix)), v1_rt by assumption; reflexivity). cbn [obind].
    replace (num _ 32 4) with (st_to_u8 st); [rewrite st_rt; reflexivity|]. pose proof (st_lt st). unfold pack_v1. rewrite <- !app_assoc. rd. reflexivity.
  - replace (zlen _) with 54 by (rewrite zlen_of, pack_v3_len; reflexivity). cbn [Z.eqb Pos.eqb andb orb]. rewrite <- (app_nil_r (pack_v3 ix)), v3_rt by assumption. reflexivity.
  - unfold u128 in W. pose proof (side_lt sd). replace (zlen _) with 20 by (rewrite zlen_of; lens; reflexivity). cbn [Z.eqb Pos.eqb andb]. rd. rewrite side_rt. reflexivity.
  - unfold u64 in W. rd. reflexivity.
  - replace (zlen _) with 46 by (rewrite zlen_of, pack_take_len; reflexivity). cbn [Z.eqb Pos.eqb andb orb]. rewrite <- (app_nil_r (pack_take ix)), take_rt by assumption. reflexivity.
  - reflexivity.
  - reflexivity.
  - unfold u16 in W. rd. reflexivity.
  - unfold u16 in W. rd. reflexivity.
  - destruct W as [W1 W2]. replace (zlen _) with 64 by (rewrite zlen_of, (flat_map_len (le 8) 8), W1 by (intros; apply le_len); reflexivity).
    cbn [Z.eqb Pos.eqb andb orb]. change (64 mod 8 =? 0) with true. change (64 <=? 64) with true. cbn [andb]. cbv zeta. change (Z.to_nat (64 / 8)) with 8%nat.
    rewrite <- (app_nil_r (flat_map (le 8) cids)). rewrite <- W1 at 1. rewrite cids_rt by assumption. cbn [Nat.sub repeat]. rewrite app_nil_r. reflexivity.
  - replace (zlen _) with 54 by (rewrite zlen_of, pack_v3_len; reflexivity). cbn [Z.eqb Pos.eqb andb orb]. rewrite <- (app_nil_r (pack_v3 ix)), v3_rt by assumption. reflexivity.
  - destruct W as [W1 W2]. replace (zlen (_ ++ _)) with (8 + 54 * zlen ixs) by (rewrite !zlen_of; lens; rewrite (flat_map_len pack_v3 54) by apply pack_v3_len; lia).
    cbn [Z.eqb Pos.eqb andb orb]. rewrite (Z.mul_comm 54), Z.mod_add by lia. change (8 mod 54 =? 8) with true.
    replace (8 + zlen ixs * 54 <=? 8 + 8 * 54) with true by (rewrite zlen_of; lia). cbn [andb]. cbv zeta.
    rewrite num_here by (pows; rewrite zlen_of; lia).
    replace ((8 + zlen ixs * 54 - 8) / 54) with (zlen ixs) by (replace (8 + zlen ixs * 54 - 8) with (zlen ixs * 54) by lia; rewrite Z.div_mul; lia).
    rewrite Z.eqb_refl. cbn [negb]. rewrite skipn_app, le_len, Nat.sub_diag, skipn_all2 by (rewrite le_len; lia). cbn [app skipn].
    rewrite zlen_of, Nat2Z.id, chunks_rt by assumption. reflexivity.
Qed.

(** The two places where a shorter encoding is accepted: a new order without a timestamp limit, and
    fewer than eight client ids. *)
Definition short_form (i : instr) (pad : bytes) : Prop :=
  match i with
  | INewOrderV3 x => oi_max_ts x = I64_MAX /\ pad = le 8 I64_MAX
  | ICancelByCids _ => exists n, pad = repeat 0 (8 * n)
  | _ => False
  end.
Theorem unpack_pack b i : is_bytes b -> unpack b = Some i ->
  wf_instr i /\ exists pad, b ++ pad = pack i /\ (pad = [] \/ short_form i pad).
Proof.
  intros HB. unfold unpack. destruct ((zlen b <? 5) || (5 + 8 + 54 * 8 <? zlen b)) eqn:L; [discriminate|]. apply orb_false_iff in L. destruct L as [L1 L2].
  rewrite zlen_of in L1, L2. destruct (num b 0 1 =? 0) eqn:V; [|discriminate]. cbn [negb].
  set (d := num b 1 4). set (data := skipn 5 b). cbv zeta.
  assert (B0 : b = le 1 0 ++ le 4 d ++ data).
  { transitivity (skipn 0 b); [reflexivity|]. rewrite (take_le b 0 1), (take_le b (0 + 1) 4) by (try assumption; lia).
    replace (num b 0 1) with 0 by lia. reflexivity. }
  assert (HD : is_bytes data) by (apply is_bytes_skipn; assumption).
  assert (LD : zlen data = Z.of_nat (length b) - 5) by (unfold data; rewrite zlen_of, skipn_length; lia).
  assert (FIN : forall i pad, d = tag i -> data ++ pad = body i -> b ++ pad = pack i).
  { intros i0 pad T BD. rewrite B0, T. unfold pack. rewrite <- BD, <- !app_assoc. reflexivity. }
  assert (FIN0 : forall i, d = tag i -> data = body i -> wf_instr i -> wf_instr i /\ exists pad, b ++ pad = pack i /\ (pad = [] \/ short_form i pad)).
  { intros i0 T BD W. split; [assumption|]. exists []. split; [apply FIN; [assumption|rewrite app_nil_r; assumption]|auto]. }
  clearbody data d.
  assert (NB : forall off n, 0 <= num data off n < 256 ^ Z.of_nat n) by (intros; apply num_bound; assumption).
  rewrite zlen_of in *.
  assert (FLD : forall n, length data = n -> le n (num data 0 n) = data).
  { intros n E. pose proof (step_le n data HD ltac:(lia)) as X. rewrite skipn_all2, app_nil_r in X by lia. exact X. }
  assert (NIL : Z.of_nat (length data) = 0 -> data = []) by (destruct data; [reflexivity|cbn; lia]).
  repeat (match goal with |- (if ?c then _ else _) = _ -> _ => destruct c eqn:?E end;
    [match goal with H : (_ && _)%bool = true |- _ => apply andb_true_iff in H; destruct H as [ED EL]; apply Z.eqb_eq in ED end|match goal with H : (_ && _)%bool = false |- _ => clear H end]).
  all: try discriminate; try apply Z.eqb_eq in EL.
  - intros [= <-]. apply FIN0; [assumption| |].
    + cbn [body ii_coin_lot ii_pc_lot ii_fee_rate ii_nonce ii_dust]. transitivity (skipn 0 data); [reflexivity|].
      rewrite (take_le data 0 8), (take_le data (0 + 8) 8), (take_le data (0 + 8 + 8) 2), (take_le data (0 + 8 + 8 + 2) 8), (take_le data (0 + 8 + 8 + 2 + 8) 8) by (try assumption; lia).
      rewrite (skipn_all2 data) by (cbn; lia). rewrite app_nil_r. reflexivity.
    + cbn [wf_instr]. unfold wf_init, u64, u16. cbn [ii_coin_lot ii_pc_lot ii_fee_rate ii_nonce ii_dust].
      pose proof (NB 0%nat 8%nat). pose proof (NB 8%nat 8%nat). pose proof (NB 16%nat 2%nat). pose proof (NB 18%nat 8%nat). pose proof (NB 26%nat 8%nat). pows. lia.
  - destruct (unpack_v1 data) as [x|] eqn:U; [|discriminate]. cbn [obind]. intros [= <-]. apply v1_inv in U; [|assumption|lia]. destruct U as [W U]. apply FIN0; [assumption|cbn [body]; congruence|assumption].
  - intros [= <-]. pose proof (NB 0%nat 2%nat) as X. pows. apply FIN0; [assumption|symmetry; apply FLD; lia|exact X].
  - intros [= <-]. pose proof (NB 0%nat 2%nat) as X. pows. apply FIN0; [assumption|symmetry; apply FLD; lia|exact X].
  - destruct (side_from (num data 0 4)) eqn:S; [|discriminate]. cbn [obind]. intros [= <-]. apply side_inv in S.
    destruct (key_inv data 20 HD ltac:(lia)) as [K1 K2]. apply FIN0; [assumption| |].
    + cbn [body]. rewrite S. transitivity (skipn 0 data); [reflexivity|]. rewrite (take_le data 0 4), (take_le data (0 + 4) 16) by (try assumption; lia).
      cbn [Nat.add] in *. rewrite K2. rewrite (take_le data 52 1) by (try assumption; lia). rewrite (skipn_all2 data) by (cbn; lia). rewrite app_nil_r. reflexivity.
    + cbn [wf_instr]. pose proof (NB 4%nat 16%nat). pose proof (NB 52%nat 1%nat). pows. unfold u128. lia.
  - intros [= <-]. apply FIN0; [assumption|auto|exact I].
  - intros [= <-]. pose proof (NB 0%nat 8%nat) as X. pows. apply FIN0; [assumption|symmetry; apply FLD; lia|exact X].
  - intros [= <-]. apply FIN0; [assumption|auto|exact I].
  - intros [= <-]. apply FIN0; [assumption|auto|exact I].
  - destruct (unpack_v1 (firstn 32 data)) as [x|] eqn:U; [|discriminate]. cbn [obind]. destruct (st_of_u8 (num data 32 4)) eqn:S; [|discriminate]. cbn [obind]. intros [= <-]. apply st_inv in S.
    apply v1_inv in U; [|apply is_bytes_firstn; assumption|rewrite firstn_length; lia]. destruct U as [W U]. apply FIN0; [assumption| |assumption].
    cbn [body]. rewrite U, S. rewrite <- (firstn_skipn 32 data) at 1. f_equal. rewrite (take_le data 32 4) by (try assumption; lia). rewrite (skipn_all2 data) by (cbn; lia). apply app_nil_r.
  - apply orb_true_iff in EL. destruct (Z.of_nat (length data) =? 46) eqn:E46.
    + destruct (unpack_v3 (data ++ le 8 I64_MAX)) as [x|] eqn:U; [|discriminate]. cbn [obind]. intros [= <-].
      assert (HB2 : is_bytes (data ++ le 8 I64_MAX)) by (apply Forall_app; split; [assumption|apply le_bytes]).
      pose proof U as U0. apply v3_inv in U; [|assumption|lens; lia]. destruct U as [W U]. split; [assumption|]. exists (le 8 I64_MAX).
      split; [apply FIN; [assumption|]|right; split; [|reflexivity]].
      * cbn [body]. rewrite U. symmetry. apply firstn_all2. lens. lia.
      * assert (N : num (data ++ le 8 I64_MAX) 46 8 = I64_MAX).
        { unfold num. rewrite skipn_app, skipn_all2 by lia. replace (46 - length data)%nat with 0%nat by lia. reflexivity. }
        unfold unpack_v3, obind in U0. rewrite N in U0. repeat match goal with H : match ?c with _ => _ end = Some _ |- _ => destruct c; [|discriminate] end. injection U0 as <-. reflexivity.
    + destruct EL as [EL|EL]; [lia|]. destruct (unpack_v3 data) as [x|] eqn:U; [|discriminate]. cbn [obind]. intros [= <-].
      apply v3_inv in U; [|assumption|lia]. destruct U as [W U]. apply FIN0; [assumption| |assumption]. cbn [body]. rewrite U. symmetry. apply firstn_all2. lia.
  - destruct (side_from (num data 0 4)) eqn:S; [|discriminate]. cbn [obind]. intros [= <-]. apply side_inv in S. apply FIN0; [assumption| |].
    + cbn [body]. rewrite S. transitivity (skipn 0 data); [reflexivity|]. rewrite (take_le data 0 4), (take_le data (0 + 4) 16) by (try assumption; lia).
      rewrite (skipn_all2 data) by (cbn; lia). rewrite app_nil_r. reflexivity.
    + cbn [wf_instr]. pose proof (NB 4%nat 16%nat). pows. unfold u128. lia.
  - intros [= <-]. pose proof (NB 0%nat 8%nat) as X. pows. apply FIN0; [assumption|symmetry; apply FLD; lia|exact X].
  - destruct (unpack_take data) as [x|] eqn:U; [|discriminate]. cbn [obind]. intros [= <-]. apply take_inv in U; [|assumption|lia]. destruct U as [W U]. apply FIN0; [assumption|cbn [body]; congruence|assumption].
  - intros [= <-]. apply FIN0; [assumption|auto|exact I].
  - intros [= <-]. apply FIN0; [assumption|auto|exact I].
  - intros [= <-]. pose proof (NB 0%nat 2%nat) as X. pows. apply FIN0; [assumption|symmetry; apply FLD; lia|exact X].
  - intros [= <-]. pose proof (NB 0%nat 2%nat) as X. pows. apply FIN0; [assumption|symmetry; apply FLD; lia|exact X].
  - apply andb_true_iff in EL. destruct EL as [EL1 EL2]. set (n := Z.to_nat (Z.of_nat (length data) / 8)). intros X. assert (X2 : i = ICancelByCids (unpack_cids n data ++ repeat 0 (8 - n))) by congruence. subst i. clear X.
    assert (LN : length data = (8 * n)%nat). { unfold n. pose proof (Z.div_mod (Z.of_nat (length data)) 8). lia. }
    clearbody n. destruct (cids_inv n data HD LN) as (F & LC & E). split.
    + cbn [wf_instr]. split; [rewrite app_length, LC, repeat_length; lia|]. apply Forall_app. split; [assumption|]. apply Forall_forall. intros x Hx. apply repeat_spec in Hx. subst x. unfold u64. lia.
    + exists (repeat 0 (8 * (8 - n))). split; [|right; exists (8 - n)%nat; reflexivity].
      apply FIN; [assumption|]. cbn [body]. rewrite flat_map_app, E, zeros_cids. reflexivity.
  - destruct (unpack_v3 data) as [x|] eqn:U; [|discriminate]. cbn [obind]. intros [= <-].
    apply v3_inv in U; [|assumption|lia]. destruct U as [W U]. apply FIN0; [assumption| |assumption]. cbn [body]. rewrite U. symmetry. apply firstn_all2. lia.
  - apply andb_true_iff in EL. destruct EL as [EL1 EL2]. destruct (num data 0 8 =? (Z.of_nat (length data) - 8) / 54) eqn:N; [|discriminate]. cbn [negb].
    set (n := Z.to_nat ((Z.of_nat (length data) - 8) / 54)).
    pose proof (Z.div_mod (Z.of_nat (length data)) 54 ltac:(lia)) as DM.
    assert (DV : (Z.of_nat (length data) - 8) / 54 = Z.of_nat (length data) / 54).
    { symmetry. apply (Z.div_unique _ _ _ 0); lia. }
    assert (LN : length data = (8 + 54 * n)%nat) by (unfold n; rewrite DV; lia).
    destruct (unpack_chunks n (skipn 8 data)) as [xs|] eqn:U; [|discriminate]. cbn [obind]. intros [= <-].
    apply chunks_inv in U; [|apply is_bytes_skipn; assumption|rewrite skipn_length; lia]. destruct U as (F & LX & U).
    apply FIN0; [assumption| |].
    + cbn [body]. rewrite U. replace (zlen xs) with (num data 0 8) by (rewrite zlen_of, LX; unfold n; lia). symmetry. apply step_le; [assumption|lia].
    + cbn [wf_instr]. split; [lia|assumption].
Qed.
(** A replacement list longer than eight orders can be packed but not unpacked. *)
Lemma replace_many_limit xs : (8 < length xs)%nat -> unpack (pack (IReplaceMany xs)) = None.
Proof.
  intros H. unfold unpack. assert (L : zlen (pack (IReplaceMany xs)) = 13 + 54 * Z.of_nat (length xs)).
  { unfold pack. cbn [body]. rewrite zlen_of. lens. rewrite (flat_map_len pack_v3 54) by apply pack_v3_len. lia. }
  rewrite L. replace (5 + 8 + 54 * 8 <? _) with true by lia. rewrite orb_true_r. reflexivity.
Qed.
Lemma unpack_header b i : is_bytes b -> unpack b = Some i -> exists r, b = 0 :: tag i :: 0 :: 0 :: 0 :: r.
Proof.
  intros HB H. destruct (unpack_pack b i HB H) as (W & pad & E & _). pose proof (tag_lt i) as T.
  assert (L : (5 <= length b)%nat).
  { unfold unpack in H. destruct ((zlen b <? 5) || _) eqn:X; [discriminate|]. rewrite zlen_of in X. lia. }
  do 5 (destruct b as [|?x b]; [cbn in L; lia|]). exists b. unfold pack in E.
  replace (le 4 (tag i)) with [tag i; 0; 0; 0] in E by (destruct i; reflexivity). change (le 1 0) with [0] in E. cbn [app] in E. congruence.
Qed.
