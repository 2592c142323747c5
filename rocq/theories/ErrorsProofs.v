(** Facts about error codes. *)
From Verif Require Import Base Errors.

Lemma numbers_small c : 0 <= to_u32 c < 1002.
Proof. destruct c; vm_compute; split; discriminate || reflexivity. Qed.
Lemma of_to c : of_u32 (to_u32 c) = c.
Proof. destruct c; vm_compute; reflexivity. Qed.
Lemma to_u32_inj c d : to_u32 c = to_u32 d -> c = d.
Proof. intros H. rewrite <- (of_to c), <- (of_to d), H. reflexivity. Qed.
Lemma declared_all : forallb (fun p => snd p =? to_u32 (fst p)) (numbered 0 declared) = true.
Proof. vm_compute. reflexivity. Qed.
Lemma of_none z : (forall c, to_u32 c <> z) -> of_u32 z = CAssertionError.
Proof.
  intros H. unfold of_u32. destruct (find _ _) as [p|] eqn:F; [|reflexivity]. exfalso. apply find_some in F. destruct F as [I E]. pose proof declared_all as X. rewrite forallb_forall in X. specialize (X p I). apply (H (fst p)). lia.
Qed.
Lemma read_back (pub : dex_code -> Z) : (forall c, to_program_error (ErrorCode c) = Custom (pub c)) ->
  forall z, (exists c, pub c = z /\ of_u32 z = c) \/ ((forall c, pub c <> z) /\ of_u32 z = CAssertionError).
Proof.
  intros PB z. assert (E : forall c, to_u32 c = pub c) by (intros c; specialize (PB c); injection PB as PB; exact PB).
  destruct (Z.eq_dec (to_u32 (of_u32 z)) z) as [Y|N].
  - left. exists (of_u32 z). rewrite <- E. auto.
  - assert (X : forall c, to_u32 c <> z) by (intros c <-; apply N; rewrite of_to; reflexivity). right. split; [intros c; rewrite <- E; apply X|apply of_none; exact X].
Qed.
Lemma file_id_inj f g : file_id f = file_id g -> f = g.
Proof. destruct f, g; cbn; intros H; try reflexivity; discriminate. Qed.
Lemma err_code_inj e d c : err_code e = Some c -> err_code d = Some c -> e = d.
Proof. intros H1 H2. destruct c; destruct e; try discriminate H1; destruct d; try discriminate H2; reflexivity. Qed.
Lemma assertion_ok line f : 0 <= line < 65536 ->
  exists z, to_program_error (of_assertion line f) = Custom z /\ 0 <= z < 4294967296 /\ z mod 65536 = line /\ z / 16777216 = file_id f /\ (forall c, to_u32 c <> z) /\ of_u32 z = CAssertionError /\
  forall line' f', 0 <= line' < 65536 -> to_program_error (of_assertion line' f') = Custom z -> line' = line /\ f' = f.
Proof.
  intros H. exists (assertion_u32 line f). assert (S : forall l g, assertion_u32 l g = l + file_id g * 16777216) by (intros; unfold assertion_u32; rewrite Z.shiftl_mul_pow2 by lia; reflexivity).
  assert (FI : 1 <= file_id f <= 3) by (destruct f; cbn; lia). rewrite S. split; [cbn [of_assertion to_program_error]; rewrite S; reflexivity|]. split; [lia|].
  split; [rewrite <- (Z.mod_small line 65536) at 2 by lia; replace (line + file_id f * 16777216) with (line + (file_id f * 256) * 65536) by lia; apply Z.mod_add; lia|].
  split; [rewrite Z.div_add, Z.div_small by lia; lia|].
  assert (X : forall c, to_u32 c <> line + file_id f * 16777216) by (intros c; pose proof (numbers_small c); lia). split; [exact X|]. split; [apply of_none; exact X|].
  intros l g HL E. cbn [of_assertion to_program_error] in E. rewrite S in E. injection E as E. assert (file_id g = file_id f) by (assert (1 <= file_id g <= 3) by (destruct g; cbn; lia); lia). split; [lia|]. apply file_id_inj. assumption.
Qed.
