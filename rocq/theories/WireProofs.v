(** The instruction encoding against its table (C11). *)
From Verif Require Import Base Fees Codec Core Instr InstrProofs WireSpec.

Definition emit (f : nat * Z) : bytes := le (fst f) (snd f).
Lemma value_unle b : value b = unle b.
Proof. induction b as [|x r IH]; [reflexivity|]. cbn [value unle]. rewrite IH. reflexivity. Qed.
Definition fits1 (f : nat * Z) : Prop := 0 <= snd f < 256 ^ Z.of_nat (fst f).
Lemma written_emit fs : Forall fits1 fs -> written fs (flat_map emit fs).
Proof.
  induction fs as [|[n z] r IH]; intros F; inversion F; subst; cbn [written flat_map]; [reflexivity|].
  exists (le n z), (flat_map emit r). split; [reflexivity|]. split; [apply le_len|]. split; [rewrite value_unle; apply unle_le; assumption|auto].
Qed.
Lemma written_is fs : forall b, is_bytes b -> written fs b -> b = flat_map emit fs.
Proof.
  induction fs as [|[n z] r IH]; intros b HB W; cbn [written flat_map] in *; [exact W|]. destruct W as (x & y & -> & <- & <- & W). apply Forall_app in HB. destruct HB as [HX HY].
  unfold emit at 1. cbn [fst snd]. rewrite value_unle, (le_unle x HX), (IH y HY W) at 1. reflexivity.
Qed.
Lemma time_is t : - (I64_MAX + 1) <= t <= I64_MAX -> time_number t = t mod B64.
Proof. unfold I64_MAX, time_number. intros T. change (2 ^ 64) with B64. destruct (Z.ltb_spec t 0); [|rewrite Z.mod_small; lia]. rewrite <- (Z.mod_add t 1 B64) by lia. rewrite Z.mod_small; lia. Qed.
Lemma order_emit x : wf_v3 x -> pack_v3 x = flat_map emit (order_fields x).
Proof. intros (_ & _ & _ & _ & _ & T). unfold pack_v3, order_fields. cbn [flat_map]. unfold emit. cbn [fst snd]. rewrite time_is by exact T. rewrite app_nil_r. destruct (oi_side x), (oi_st x), (oi_ot x); reflexivity. Qed.
Lemma old_emit x : pack_v1 x = flat_map emit (old_fields x).
Proof. unfold pack_v1, old_fields. cbn [flat_map]. unfold emit. cbn [fst snd]. rewrite app_nil_r. destruct (od_side x), (od_ot x); reflexivity. Qed.
Lemma orders_emit xs : Forall wf_v3 xs -> flat_map pack_v3 xs = flat_map emit (concat (map order_fields xs)).
Proof. induction 1 as [|x r W F IH]; [reflexivity|]. cbn [flat_map map concat]. rewrite flat_map_app, (order_emit x W), IH. reflexivity. Qed.
Lemma cids_emit cids : flat_map (le 8) cids = flat_map emit (map (fun c => (8%nat, c)) cids).
Proof. induction cids as [|c r IH]; [reflexivity|]. cbn [flat_map map]. rewrite IH. reflexivity. Qed.
Lemma key_emit k : key_le k = flat_map emit (key_words k).
Proof. unfold key_le, key_words. cbn [flat_map]. unfold emit. cbn [fst snd]. rewrite app_nil_r. reflexivity. Qed.
Lemma pack_emit i : wf_instr i -> pack i = flat_map emit (wire i).
Proof.
  intros W. unfold pack, wire. cbn [flat_map]. unfold emit at 1 2. cbn [fst snd]. f_equal. f_equal; [destruct i; reflexivity|].
  destruct i; cbn [body content snd wf_instr] in *; try (cbn [flat_map]; unfold emit; cbn [fst snd]; rewrite ?app_nil_r; reflexivity).
  all: try solve [apply order_emit; exact W|apply cids_emit|cbn [flat_map]; rewrite (orders_emit ixs (proj2 W)); reflexivity].
Qed.
Lemma order_fits x : wf_v3 x -> Forall fits1 (order_fields x).
Proof.
  intros (a & b & c & d & f & g). assert (TN : 0 <= time_number (oi_max_ts x) < B64) by (rewrite time_is by exact g; apply Z.mod_pos_bound; lia). unfold nz64, u64, u16, I64_MAX in *. unfold order_fields.
  repeat (constructor; [unfold fits1; cbn [fst snd]; rewrite ?p256_2, ?p256_4, ?p256_8; try (destruct (oi_side x), (oi_st x), (oi_ot x); cbn; lia); try lia|]). constructor.
Qed.
Lemma old_fits x : wf_v1 x -> Forall fits1 (old_fields x).
Proof.
  intros (a & b & c). unfold nz64, u64 in *. unfold old_fields.
  repeat (constructor; [unfold fits1; cbn [fst snd]; rewrite ?p256_2, ?p256_4, ?p256_8; try (destruct (od_side x), (od_ot x); cbn; lia); try lia|]). constructor.
Qed.
Lemma wire_fits i : wf_instr i -> match i with IReplaceMany xs => (length xs <= 8)%nat | _ => True end -> Forall fits1 (wire i).
Proof.
  intros W LN. unfold wire. constructor; [unfold fits1; cbn; lia|]. constructor; [unfold fits1; cbn [fst snd]; rewrite p256_4; destruct i; cbn; lia|].
  destruct i; cbn [content snd wf_instr] in *; unfold wf_init, wf_take, nz64, u64, u16, u128 in W.
  all: try solve [repeat (constructor; [unfold fits1; cbn [fst snd]; rewrite ?p256_1, ?p256_2, ?p256_4, ?p256_8, ?p256_16; try lia|]); constructor].
  - apply old_fits. exact W.
  - apply Forall_app. split; [repeat (constructor; [unfold fits1; cbn [fst snd]; rewrite ?p256_4, ?p256_16; try (destruct sd; cbn; lia); try lia|]); constructor|]. apply Forall_app. destruct W as (w1 & w2 & w3). split; [|constructor; [unfold fits1; cbn; lia|constructor]].
    unfold key_words. change (2 ^ 192) with (B64 * B64 * B64). change (2 ^ 128) with (B64 * B64). change (2 ^ 64) with B64.
    constructor; [unfold fits1; cbn [fst snd]; rewrite p256_8; split; [apply Z.div_pos; lia|apply Z.div_lt_upper_bound; lia]|]. repeat (constructor; [unfold fits1; cbn [fst snd]; rewrite p256_8; apply Z.mod_pos_bound; lia|]). constructor.
  - apply Forall_app. split; [apply old_fits; exact W|]. constructor; [unfold fits1; cbn [fst snd]; rewrite p256_4; destruct st; cbn; lia|constructor].
  - apply order_fits. exact W.
  - repeat (constructor; [unfold fits1; cbn [fst snd]; rewrite ?p256_4, ?p256_16; try (destruct sd; cbn; lia); try lia|]). constructor.
  - repeat (constructor; [unfold fits1; cbn [fst snd]; rewrite ?p256_2, ?p256_4, ?p256_8; try (destruct (ti_side ix); cbn; lia); try lia|]). constructor.
  - apply Forall_map. eapply Forall_impl; [|exact (proj2 W)]. intros c C. unfold fits1. cbn [fst snd]. rewrite p256_8. exact C.
  - apply order_fits. exact W.
  - constructor; [unfold fits1; cbn [fst snd]; rewrite p256_8; lia|]. apply Forall_concat, Forall_map. eapply Forall_impl; [|exact (proj2 W)]. intros x X. apply order_fits. exact X.
Qed.
Lemma wf_len i : wf_instr i -> match i with IReplaceMany xs => (length xs <= 8)%nat | _ => True end.
Proof. destruct i; intros W; try exact I. exact (proj1 W). Qed.
Theorem wire_packed i : wf_instr i -> written (wire i) (pack i).
Proof. intros W. rewrite (pack_emit i W). apply written_emit, wire_fits; [exact W|apply wf_len; exact W]. Qed.
Theorem wire_read b i : is_bytes b -> unpack b = Some i -> exists pad, written (wire i) (b ++ pad) /\ left_off i pad.
Proof.
  intros HB U. destruct (unpack_pack b i HB U) as (W & pad & EP & SF). exists pad. split; [rewrite EP; apply wire_packed; exact W|]. unfold left_off. destruct SF as [SF|SF]; [auto|right]. destruct i; exact SF.
Qed.
Theorem wire_accepted b i : is_bytes b -> wf_instr i -> written (wire i) b -> unpack b = Some i.
Proof. intros HB W WR. rewrite (written_is _ b HB WR), <- (pack_emit i W). apply pack_unpack. exact W. Qed.
