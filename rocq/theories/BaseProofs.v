(** Lemmas about the shared vocabulary. *)
From Verif Require Import Base.

Lemma w64_small x : 0 <= x < B64 -> w64 x = x.
Proof. intros. unfold w64. apply Z.mod_small. lia. Qed.
Lemma wadd_small a b : 0 <= a + b < B64 -> wadd a b = a + b.
Proof. apply w64_small. Qed.
Lemma wsub_small a b : 0 <= a - b < B64 -> wsub a b = a - b.
Proof. apply w64_small. Qed.
Lemma wmul_small a b : 0 <= a * b < B64 -> wmul a b = a * b.
Proof. apply w64_small. Qed.
Lemma w64_range x : 0 <= w64 x < B64.
Proof. unfold w64. apply Z.mod_pos_bound. lia. Qed.

Lemma znth_lt {A} (l : list A) i : 0 <= i < zlen l -> exists x, znth l i = Some x.
Proof.
  unfold znth, zlen. intros. replace (i <? 0) with false by lia.
  destruct (nth_error l (Z.to_nat i)) eqn:E; eauto.
  apply nth_error_None in E. lia.
Qed.
Lemma znth_Some {A} (l : list A) i x : znth l i = Some x -> 0 <= i < zlen l.
Proof.
  unfold znth, zlen. destruct (i <? 0) eqn:E; [discriminate|].
  intros H. assert (nth_error l (Z.to_nat i) <> None) by congruence.
  apply nth_error_Some in H0. lia.
Qed.
Lemma znth_In {A} (l : list A) i x : znth l i = Some x -> In x l.
Proof.
  unfold znth. destruct (i <? 0); [discriminate|]. apply nth_error_In.
Qed.
Lemma In_znth {A} (l : list A) x : In x l -> exists i, znth l i = Some x.
Proof.
  intros H. apply In_nth_error in H. destruct H as [n H].
  exists (Z.of_nat n). unfold znth. replace (Z.of_nat n <? 0) with false by lia.
  rewrite Nat2Z.id. assumption.
Qed.

Lemma upd_nth_length {A} (l : list A) n v : length (upd_nth l n v) = length l.
Proof. revert n. induction l; destruct n; cbn; auto. Qed.
Lemma zupd_len {A} (l : list A) i v : zlen (zupd l i v) = zlen l.
Proof. unfold zupd, zlen. destruct (i <? 0); auto. rewrite upd_nth_length. reflexivity. Qed.
Lemma upd_nth_same {A} (l : list A) n v : (n < length l)%nat -> nth_error (upd_nth l n v) n = Some v.
Proof. revert n. induction l; destruct n; cbn; intros; try lia; auto. apply IHl. lia. Qed.
Lemma upd_nth_other {A} (l : list A) n m v : n <> m -> nth_error (upd_nth l n v) m = nth_error l m.
Proof. revert n m. induction l; destruct n, m; cbn; intros; auto; try congruence. Qed.
Lemma znth_zupd_same {A} (l : list A) i v : 0 <= i < zlen l -> znth (zupd l i v) i = Some v.
Proof.
  unfold znth, zupd, zlen. intros. replace (i <? 0) with false by lia.
  apply upd_nth_same. lia.
Qed.
Lemma znth_zupd_other {A} (l : list A) i j v : i <> j -> znth (zupd l i v) j = znth l j.
Proof.
  unfold znth, zupd. intros. destruct (i <? 0) eqn:E; auto. destruct (j <? 0) eqn:F; auto.
  apply upd_nth_other. lia.
Qed.
Lemma znth_zupd {A} (l : list A) i j v : 0 <= i < zlen l ->
  znth (zupd l i v) j = if i =? j then Some v else znth l j.
Proof.
  intros. destruct (i =? j) eqn:E.
  - apply Z.eqb_eq in E. subst. apply znth_zupd_same. assumption.
  - apply znth_zupd_other. lia.
Qed.

Lemma zlen_app {A} (a b : list A) : zlen (a ++ b) = zlen a + zlen b.
Proof. unfold zlen. rewrite app_length. lia. Qed.
Lemma zlen_cons {A} (x : A) l : zlen (x :: l) = 1 + zlen l.
Proof. unfold zlen. cbn [length]. lia. Qed.
Lemma zlen_nonneg {A} (l : list A) : 0 <= zlen l.
Proof. unfold zlen. lia. Qed.
Lemma zlen_nil {A} : zlen (@nil A) = 0.
Proof. reflexivity. Qed.

(** Inversion helpers for the result monad. *)
Lemma rbind_ok {A B} (x : res A) (f : A -> res B) b :
  rbind x f = Ok b -> exists a, x = Ok a /\ f a = Ok b.
Proof. destruct x; cbn; intros; try discriminate. eauto. Qed.
Lemma check_ok b e u : check b e = Ok u -> b = true.
Proof. unfold check. destruct b; congruence. Qed.
Lemma passert_ok b u : passert b = Ok u -> b = true.
Proof. unfold passert. destruct b; congruence. Qed.
Lemma unwrap_ok {A} (o : option A) a : unwrap o = Ok a -> o = Some a.
Proof. destruct o; cbn; congruence. Qed.
Lemma ok_or_ok {A} (o : option A) e a : ok_or o e = Ok a -> o = Some a.
Proof. destruct o; cbn; congruence. Qed.
Lemma cadd_ok a b c : cadd a b = Ok c -> c = a + b /\ a + b < B64.
Proof. unfold cadd. destruct (a + b <? B64) eqn:E; [|discriminate]. intros H; inversion H. lia. Qed.
Lemma csub_ok a b c : csub a b = Ok c -> c = a - b /\ b <= a.
Proof. unfold csub. destruct (b <=? a) eqn:E; [|discriminate]. intros H; inversion H. lia. Qed.
Lemma cmul_ok a b c : cmul a b = Ok c -> c = a * b /\ a * b < B64.
Proof. unfold cmul. destruct (a * b <? B64) eqn:E; [|discriminate]. intros H; inversion H. lia. Qed.

Ltac mbind H :=
  match type of H with
  | rbind ?x ?f = Ok ?b =>
      let a := fresh "a" in let E := fresh "E" in
      apply rbind_ok in H; destruct H as (a & E & H)
  end.

Lemma NoDup_app_inv {A} (a b : list A) : NoDup (a ++ b) ->
  NoDup a /\ NoDup b /\ (forall x, In x a -> In x b -> False).
Proof.
  induction a as [|x a IH]; cbn; intros H.
  - split; [constructor|]. split; [assumption|]. intros ? [].
  - inversion H as [|? ? N1 N2]; subst. destruct (IH N2) as (Na & Nb & D).
    rewrite in_app_iff in N1. split; [constructor; tauto|]. split; [assumption|].
    intros y [->|Hy] Hb; [tauto|eauto].
Qed.
