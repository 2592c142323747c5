(** Facts about the store and the token program's transfer. *)
From Verif Require Import Base BaseProofs Fees Queue Codec Critbit Market Matching Core Instr Store Process.

(** ** Reading after writing *)
Lemma sget_sput s k a x : sget (sput s k a) x = if x =? k then a else sget s x.
Proof.
  unfold sget. induction s as [|[k' b] r IH]; cbn [sput sfind].
  - rewrite Z.eqb_sym. destruct (x =? k); reflexivity.
  - destruct (Z.eqb_spec k' k) as [->|N]; cbn [sfind].
    + rewrite (Z.eqb_sym x k). destruct (k =? x); reflexivity.
    + destruct (Z.eqb_spec k' x) as [E|N2].
      * replace (x =? k) with false by lia. reflexivity.
      * exact IH.
Qed.
Lemma sget_put s k d x : sget (put_data s k d) x = if x =? k then set_data (sget s k) d else sget s x.
Proof. apply sget_sput. Qed.
Lemma sget_lam s k l x : sget (put_lamports s k l) x = if x =? k then set_lamports (sget s k) l else sget s x.
Proof. apply sget_sput. Qed.
Lemma put_prog s k d x : a_prog (sget (put_data s k d) x) = a_prog (sget s x).
Proof. rewrite sget_put. destruct (Z.eqb_spec x k) as [->|]; reflexivity. Qed.
Lemma put_len s k d x : a_len (sget (put_data s k d) x) = a_len (sget s x).
Proof. rewrite sget_put. destruct (Z.eqb_spec x k) as [->|]; reflexivity. Qed.
Lemma put_lam s k d x : a_lamports (sget (put_data s k d) x) = a_lamports (sget s x).
Proof. rewrite sget_put. destruct (Z.eqb_spec x k) as [->|]; reflexivity. Qed.
Lemma put_data_eq s k d x : a_data (sget (put_data s k d) x) = if x =? k then d else a_data (sget s x).
Proof. rewrite sget_put. destruct (Z.eqb_spec x k) as [->|]; reflexivity. Qed.

(** ** What the dex sees: the data of the accounts it owns *)
Section Views.
Variable e : env.
Definition dexd (s : store) (k : Z) : option adata :=
  if a_prog (sget s k) =? e_prog e then Some (a_data (sget s k)) else None.
Lemma dexd_owned s k d : dexd s k = Some d -> a_prog (sget s k) = e_prog e /\ a_data (sget s k) = d.
Proof. unfold dexd. destruct (Z.eqb_spec (a_prog (sget s k)) (e_prog e)); [|discriminate]. intros [= <-]. auto. Qed.
Lemma dexd_put s k d x : dexd (put_data s k d) x = if x =? k then (if a_prog (sget s k) =? e_prog e then Some d else None) else dexd s x.
Proof. unfold dexd. rewrite put_prog, put_data_eq. destruct (Z.eqb_spec x k) as [->|]; reflexivity. Qed.
Lemma dexd_put_owned s k d x d0 : dexd s k = Some d0 -> dexd (put_data s k d) x = if x =? k then Some d else dexd s x.
Proof. intros H. apply dexd_owned in H. rewrite dexd_put, (proj1 H), Z.eqb_refl. reflexivity. Qed.
Lemma dexd_lam s k l x : dexd (put_lamports s k l) x = dexd s x.
Proof. unfold dexd. rewrite sget_lam. destruct (Z.eqb_spec x k) as [->|]; reflexivity. Qed.
Lemma len_lam s k l x : a_len (sget (put_lamports s k l) x) = a_len (sget s x).
Proof. rewrite sget_lam. destruct (Z.eqb_spec x k) as [->|]; reflexivity. Qed.

(** ** Token accounts *)
Hypothesis NS : e_prog e <> spl_id.
Lemma token_put s k d x d0 : dexd s k = Some d0 -> token_at (put_data s k d) x = token_at s x.
Proof.
  intros H. apply dexd_owned in H. unfold token_at. rewrite put_prog, put_data_eq. destruct (Z.eqb_spec x k) as [->|]; [|reflexivity].
  rewrite (proj1 H). replace (e_prog e =? spl_id) with false by lia. reflexivity.
Qed.
Lemma token_lam s k l x : token_at (put_lamports s k l) x = token_at s x.
Proof. unfold token_at. rewrite sget_lam. destruct (Z.eqb_spec x k) as [->|]; reflexivity. Qed.
Lemma token_at_inv s k t : token_at s k = Some t -> a_prog (sget s k) = spl_id /\ a_data (sget s k) = DToken t.
Proof.
  unfold token_at. destruct (Z.eqb_spec (a_prog (sget s k)) spl_id); [|discriminate]. destruct (a_data (sget s k)); try discriminate.
  intros [= ->]. auto.
Qed.
Lemma token_put_token s k t x t0 : token_at s k = Some t0 -> token_at (put_data s k (DToken t)) x = if x =? k then Some t else token_at s x.
Proof.
  intros H. apply token_at_inv in H. unfold token_at. rewrite put_prog, put_data_eq. destruct (Z.eqb_spec x k) as [->|]; [|reflexivity].
  rewrite (proj1 H), Z.eqb_refl. reflexivity.
Qed.
Lemma dexd_put_token s k d x t0 : token_at s k = Some t0 -> dexd (put_data s k d) x = dexd s x.
Proof.
  intros H. apply token_at_inv in H. rewrite dexd_put. destruct (Z.eqb_spec x k) as [->|]; [|reflexivity]. unfold dexd.
  rewrite (proj1 H). replace (spl_id =? e_prog e) with false by lia. reflexivity.
Qed.

(** The effect of a successful transfer. *)
Record transferred (s s' : store) (src dst auth amt : Z) : Prop := mkTransferred {
  tr_amt : 0 <= amt;
  tr_dexd : forall x, dexd s' x = dexd s x;
  tr_len : forall x, a_len (sget s' x) = a_len (sget s x);
  tr_prog : forall x, a_prog (sget s' x) = a_prog (sget s x);
  tr_lam : forall x, a_lamports (sget s' x) = a_lamports (sget s x);
  tr_tok : exists ts td, token_at s src = Some ts /\ token_at s dst = Some td /\ t_mint ts = t_mint td /\ t_state ts = 1 /\ t_state td = 1 /\
    amt <= t_amount ts /\ (is_delegate ts auth = true \/ t_owner ts = auth) /\
    if src =? dst then s' = s
    else t_amount td + amt < B64 /\
      forall x, token_at s' x =
        if x =? dst then Some (set_amount td (t_amount td + amt))
        else if x =? src then Some (set_amount (if is_delegate ts auth then use_delegate ts amt else ts) (t_amount ts - amt))
        else token_at s x
}.
Lemma spl_transfer_ok s src dst auth sg amt s' : spl_transfer s src dst auth sg amt = Ok s' -> transferred s s' src dst auth amt.
Proof.
  unfold spl_transfer. intros H. apply rbind_ok in H. destruct H as (? & H0 & H). apply check_ok in H0.
  destruct (token_at s src) as [ts|] eqn:ES; [|discriminate]. destruct (token_at s dst) as [td|] eqn:ED; [|discriminate]. cbn [ok_or rbind] in H.
  apply rbind_ok in H. destruct H as (? & H1 & H). apply check_ok in H1.
  apply rbind_ok in H. destruct H as (? & H2 & H). apply check_ok in H2.
  apply rbind_ok in H. destruct H as (? & H3 & H). apply check_ok in H3.
  apply rbind_ok in H. destruct H as (? & H4 & H). apply check_ok in H4.
  apply rbind_ok in H. destruct H as (? & H5 & H). apply check_ok in H5.
  apply rbind_ok in H. destruct H as (? & H6 & H). apply check_ok in H6.
  assert (C : is_delegate ts auth = true \/ t_owner ts = auth) by (destruct (is_delegate ts auth); [auto|right; cbn [orb] in H5; lia]).
  destruct (Z.eqb_spec src dst) as [E|N].
  - injection H as <-. constructor; try reflexivity; [lia|]. exists ts, td. rewrite ES, ED. replace (src =? dst) with true by lia. split; [reflexivity|]. split; [reflexivity|]. do 4 (split; [lia|]). split; [exact C|reflexivity].
  - apply rbind_ok in H. destruct H as (? & H7 & H). apply check_ok in H7. injection H as <-.
    set (t1 := set_amount _ (t_amount ts - amt)).
    assert (ED' : token_at (put_data s src (DToken t1)) dst = Some td) by (rewrite (token_put_token _ _ _ _ ts) by assumption; replace (dst =? src) with false by lia; assumption).
    constructor; intros.
    + lia.
    + rewrite (dexd_put_token _ _ _ _ td) by assumption. apply (dexd_put_token _ _ _ _ ts). assumption.
    + rewrite !put_len. reflexivity.
    + rewrite !put_prog. reflexivity.
    + rewrite !put_lam. reflexivity.
    + exists ts, td. rewrite ES, ED. replace (src =? dst) with false by lia. split; [reflexivity|]. split; [reflexivity|]. do 4 (split; [lia|]). split; [exact C|]. split; [lia|].
      intros y. rewrite (token_put_token _ _ _ _ td) by assumption. destruct (y =? dst); [reflexivity|]. apply (token_put_token _ _ _ _ ts). assumption.
Qed.
Lemma send_from_vault_ok s v dst auth amt s' : send_from_vault s v dst auth amt = Ok s' -> transferred s s' v dst auth amt.
Proof. unfold send_from_vault. destruct (spl_transfer s v dst auth true amt) eqn:E; try discriminate. intros [= <-]. eapply spl_transfer_ok; eassumption. Qed.
Lemma transfer_in_ok s h src v auth amt s' : transfer_in s h src v auth amt = Ok s' -> (amt = 0 /\ s' = s) \/ (amt <> 0 /\ transferred s s' src v auth amt /\ src <> v).
Proof.
  unfold transfer_in. destruct (Z.eqb_spec amt 0) as [->|N]; [intros [= <-]; auto|]. intros H. right. split; [assumption|].
  apply rbind_ok in H. destruct H as (b0 & B0 & H). apply rbind_ok in H. destruct H as (? & _ & H). apply rbind_ok in H. destruct H as (s1 & ST & H).
  apply rbind_ok in H. destruct H as (b1 & B1 & H). apply rbind_ok in H. destruct H as (? & B2 & H). apply check_ok in B2. injection H as <-.
  pose proof (spl_transfer_ok _ _ _ _ _ _ _ ST) as T. split; [assumption|]. intros ->.
  destruct (tr_tok _ _ _ _ _ _ T) as (? & ? & _ & _ & _ & _ & _ & _ & _ & E). rewrite Z.eqb_refl in E. subst s1. rewrite B0 in B1. injection B1 as <-. lia.
Qed.
End Views.
