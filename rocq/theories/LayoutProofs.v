(** Facts about the bytes of accounts. *)
From Verif Require Import Base BaseProofs Fees Queue Codec Critbit Market Matching Instr InstrProofs Store Process Borsh BorshProofs Layout LayoutSpec PoolExec.

(** ** Packed records *)
Lemma wr_len f z : length (wr f z) = width f.
Proof. destruct f; cbn [wr width]; [apply le_len|unfold key_le; rewrite !app_length, !le_len; reflexivity]. Qed.
Lemma wr_bytes f z : is_bytes (wr f z).
Proof. destruct f; cbn [wr]; [apply le_bytes|]. unfold key_le. repeat (apply is_bytes_app; split); apply le_bytes. Qed.
Lemma rd_wr f z r : fits f z -> rd f (wr f z ++ r) = z.
Proof.
  destruct f as [n|]; cbn [fits rd wr]; intros H; [apply num_here; assumption|].
  pose proof (proj1 key_ok z r H) as Q. unfold get_key in Q. destruct (_ <=? _)%nat; [congruence|discriminate].
Qed.
Lemma skip_wr f z r : skipn (width f) (wr f z ++ r) = r.
Proof. rewrite <- (wr_len f z), skipn_app, skipn_all, Nat.sub_diag. reflexivity. Qed.
Lemma wr_rd f b : is_bytes b -> (width f <= length b)%nat -> fits f (rd f b) /\ wr f (rd f b) ++ skipn (width f) b = b.
Proof.
  destruct f as [n|]; cbn [fits rd wr width]; intros B L.
  - split; [apply num_bound; assumption|apply step_le; assumption].
  - destruct (proj2 key_ok b (key_unle b 0) (skipn 32 b) B) as (W & Q & _); [|split; [assumption|symmetry; exact Q]].
    unfold get_key. replace (32 <=? length b)%nat with true by (symmetry; apply Nat.leb_le; assumption). reflexivity.
Qed.
Lemma split_join fs : forall zs r, Forall2 fits fs zs -> split fs (join fs zs ++ r) = zs.
Proof.
  induction fs as [|f fs IH]; intros zs r H; inversion H as [|x y l l' F1 F2]; subst; [reflexivity|]. cbn [split join]. rewrite <- app_assoc, rd_wr by assumption. rewrite skip_wr, IH by assumption. reflexivity.
Qed.
Lemma join_len fs : forall zs, length zs = length fs -> length (join fs zs) = size fs.
Proof. induction fs as [|f fs IH]; intros [|z zs] H; try discriminate; [reflexivity|]. cbn [join size]. rewrite app_length, wr_len, IH by (cbn in H; lia). reflexivity. Qed.
Lemma join_bytes fs : forall zs, is_bytes (join fs zs).
Proof. induction fs as [|f fs IH]; intros [|z zs]; try constructor. cbn [join]. apply is_bytes_app. split; [apply wr_bytes|apply IH]. Qed.
Lemma split_len fs : forall b, length (split fs b) = length fs.
Proof. induction fs as [|f fs IH]; intros b; [reflexivity|]. cbn [split length]. rewrite IH. reflexivity. Qed.
Lemma join_split fs : forall b, is_bytes b -> (size fs <= length b)%nat -> Forall2 fits fs (split fs b) /\ join fs (split fs b) ++ skipn (size fs) b = b.
Proof.
  induction fs as [|f fs IH]; intros b B L; cbn [split join size] in *; [split; [constructor|reflexivity]|].
  destruct (wr_rd f b B ltac:(lia)) as [F Q]. destruct (IH (skipn (width f) b)) as [F2 Q2]; [apply is_bytes_skipn; assumption|rewrite skipn_length; lia|].
  split; [constructor; assumption|]. rewrite <- app_assoc, <- (skipn_skipn (size fs) (width f)). rewrite Q2. exact Q.
Qed.
Lemma join_skip fs zs r : length zs = length fs -> skipn (size fs) (join fs zs ++ r) = r.
Proof. intros L. rewrite <- (join_len fs zs L), skipn_app, skipn_all, Nat.sub_diag. reflexivity. Qed.
Lemma split_app fs gs b : split (fs ++ gs) b = split fs b ++ split gs (skipn (size fs) b).
Proof. revert b. induction fs as [|f fs IH]; intros b; [reflexivity|]. cbn [app split size]. rewrite IH, skipn_skipn. reflexivity. Qed.

(** ** Padding *)
Lemma same_bytes_ok a : forall b, same_bytes a b = true <-> a = b.
Proof.
  induction a as [|x a IH]; intros [|y b]; cbn [same_bytes]; split; intros H; try discriminate; try reflexivity.
  - apply andb_prop in H. destruct H as [X H]. apply IH in H. subst. apply Z.eqb_eq in X. congruence.
  - injection H as -> ->. apply andb_true_intro. split; [apply Z.eqb_refl|apply IH; reflexivity].
Qed.
Lemma inside_len b : (12 <= length b)%nat -> length (inside b) = (length b - 12)%nat.
Proof. intros H. unfold inside. rewrite firstn_length, skipn_length. lia. Qed.
Lemma framed_len d : length (framed d) = (length d + 12)%nat.
Proof. unfold framed. rewrite !app_length. cbn. lia. Qed.
Lemma inside_framed d : inside (framed d) = d.
Proof.
  unfold inside. rewrite framed_len. unfold framed. change (skipn 5 (HEAD ++ d ++ TAIL)) with (d ++ TAIL).
  replace (length d + 12 - 12)%nat with (length d) by lia. rewrite firstn_app, firstn_all, Nat.sub_diag. apply app_nil_r.
Qed.
Lemma cut b : (12 <= length b)%nat -> b = firstn 5 b ++ inside b ++ skipn (length b - 7) b.
Proof.
  intros L. unfold inside. replace (length b - 7)%nat with (5 + (length b - 12))%nat by lia. rewrite <- skipn_skipn. rewrite firstn_skipn. symmetry. apply firstn_skipn.
Qed.
Lemma padding_ok b d : check_padding b = Ok d <-> b = framed d /\ (length d mod 8 = 0)%nat.
Proof.
  unfold check_padding. split.
  - intros H. apply rbind_ok in H. destruct H as ([] & L%check_ok & H). apply rbind_ok in H. destruct H as ([] & H1%check_ok & H). apply rbind_ok in H. destruct H as ([] & H2%check_ok & H).
    apply rbind_ok in H. destruct H as ([] & H3%check_ok & H). injection H as <-. apply Nat.leb_le in L. apply same_bytes_ok in H1, H2. apply Nat.eqb_eq in H3.
    split; [|assumption]. rewrite (cut b L) at 1. rewrite H1, H2. reflexivity.
  - intros [-> M]. rewrite inside_framed, framed_len. replace (12 <=? length d + 12)%nat with true by (symmetry; apply Nat.leb_le; lia). cbn [check rbind].
    replace (same_bytes (firstn 5 (framed d)) HEAD) with true by (symmetry; apply same_bytes_ok; reflexivity). cbn [check rbind].
    replace (same_bytes (skipn (length d + 12 - 7) (framed d)) TAIL) with true.
    2:{ symmetry. apply same_bytes_ok. unfold framed. replace (length d + 12 - 7)%nat with (length (HEAD ++ d)) by (rewrite app_length; cbn; lia). rewrite app_assoc, skipn_app, skipn_all, Nat.sub_diag. reflexivity. }
    cbn [check rbind]. rewrite M. reflexivity.
Qed.
Lemma framed_flags d : num (framed d) 5 8 = num (d ++ TAIL) 0 8.
Proof. reflexivity. Qed.
Lemma flags_in d : (8 <= length d)%nat -> num (framed d) 5 8 = num d 0 8.
Proof. intros L. rewrite framed_flags. unfold num. cbn [skipn]. rewrite firstn_app. replace (8 - length d)%nat with 0%nat by lia. rewrite firstn_O, app_nil_r. reflexivity. Qed.
Lemma framed_not_zero d : all_zero (framed d) = false.
Proof. reflexivity. Qed.
Lemma zero_framed b d : all_zero b = true -> b <> framed d.
Proof. intros Z ->. rewrite framed_not_zero in Z. discriminate. Qed.
Lemma zero_padding b : all_zero b = true -> forall d, check_padding b <> Ok d.
Proof. intros Z d H. apply padding_ok in H. apply (zero_framed b d Z). apply H. Qed.

(** ** Which flags each loader accepts *)
Lemma known_ok f : flags_known f = true -> flags_known f = true. Proof. auto. Qed.
Lemma market_flags d : m_flags (dec_market d) = num d 0 8. Proof. reflexivity. Qed.
Lemma market2_flags d : m_flags (dec_market2 d) = num d 0 8. Proof. reflexivity. Qed.
Lemma oo_flags_of d : oo_flags (dec_oo d) = num d 0 8. Proof. reflexivity. Qed.
Lemma Ok_eq {A} (x y : A) : Ok x = Ok y -> x = y.
Proof. congruence. Qed.
Lemma pass_ok b : passert b = Ok tt -> b = true.
Proof. destruct b; [reflexivity|discriminate]. Qed.

Lemma b_market_ok b allow m : b_market b allow = Ok m <->
  exists d, b = framed d /\
    (length d = 376%nat /\ m = dec_market d /\ (m_flags m = 3 \/ allow = true /\ m_flags m = 131) \/
     length d = 1464%nat /\ m = dec_market2 d /\ (m_flags m = 515 \/ m_flags m = 1539 \/ allow = true /\ (m_flags m = 643 \/ m_flags m = 1667))).
Proof.
  unfold b_market. split.
  - intros H. apply rbind_ok in H. destruct H as ([] & _ & H). cbv zeta in H. apply rbind_ok in H. destruct H as ([] & _ & H). destruct (has_flag _ _).
    + apply rbind_ok in H. destruct H as (d & P%padding_ok & H). destruct P as [P _]. apply rbind_ok in H. destruct H as ([] & L%pass_ok & H). apply rbind_ok in H. destruct H as ([] & F & H). injection H as <-.
      apply Nat.eqb_eq in L. exists d. split; [assumption|]. right. split; [assumption|]. split; [reflexivity|]. unfold flags_v2 in F. apply rbind_ok in F. destruct F as ([] & _ & F%check_ok). destruct allow; lia.
    + apply rbind_ok in H. destruct H as (d & P%padding_ok & H). destruct P as [P _]. apply rbind_ok in H. destruct H as ([] & L%pass_ok & H). apply rbind_ok in H. destruct H as ([] & F & H). injection H as <-.
      apply Nat.eqb_eq in L. exists d. split; [assumption|]. left. split; [assumption|]. split; [reflexivity|]. unfold flags_v1 in F. apply rbind_ok in F. destruct F as ([] & _ & F%check_ok). destruct allow; lia.
  - intros (d & -> & H). assert (L8 : (8 <= length d)%nat) by (destruct H as [[-> _]|[-> _]]; lia). rewrite framed_len. replace (13 <=? length d + 12)%nat with true by (symmetry; apply Nat.leb_le; lia). cbn [check rbind]. cbv zeta. rewrite flags_in by assumption.
    assert (PD : forall k, length d = (8 * k)%nat -> check_padding (framed d) = Ok d) by (intros k Q; apply padding_ok; split; [reflexivity|rewrite Q, Nat.mul_comm; apply Nat.mod_mul; lia]).
    destruct H as [(L & -> & F)|(L & -> & F)]; [rewrite (PD 47%nat L)|rewrite (PD 183%nat L)]; rewrite ?market_flags, ?market2_flags in *.
    + assert (Q : num d 0 8 = 3 \/ num d 0 8 = 131) by tauto. assert (has_flag (num d 0 8) AF_Permissioned = false) as -> by (destruct Q as [-> | ->]; reflexivity).
      assert (flags_known (num d 0 8) = true) as -> by (destruct Q as [-> | ->]; reflexivity). cbn [check rbind]. rewrite L. cbn [Nat.eqb passert rbind].
      unfold flags_v1. rewrite market_flags. assert (flags_known (num d 0 8) = true) as -> by (destruct Q as [-> | ->]; reflexivity). cbn [check rbind].
      destruct F as [-> |[-> ->]]; reflexivity.
    + assert (Q : num d 0 8 = 515 \/ num d 0 8 = 1539 \/ num d 0 8 = 643 \/ num d 0 8 = 1667) by tauto. assert (has_flag (num d 0 8) AF_Permissioned = true) as -> by (destruct Q as [-> |[-> |[-> | ->]]]; reflexivity).
      assert (flags_known (num d 0 8) = true) as -> by (destruct Q as [-> |[-> |[-> | ->]]]; reflexivity). cbn [check rbind]. rewrite L. change (1464 =? 1464)%nat with true. cbn [passert rbind].
      unfold flags_v2. rewrite market2_flags. assert (flags_known (num d 0 8) = true) as -> by (destruct Q as [-> |[-> |[-> | ->]]]; reflexivity). cbn [check rbind].
      destruct F as [-> |[-> |[-> [-> | ->]]]]; try destruct allow; reflexivity.
Qed.
Lemma strip_ok w b h r : strip w b = Ok (h, r) <-> exists d, b = framed d /\ (length d mod 8 = 0)%nat /\ (w <= length d)%nat /\ h = firstn w d /\ r = skipn w d.
Proof.
  unfold strip. split.
  - intros H. apply rbind_ok in H. destruct H as (d & P%padding_ok & H). apply rbind_ok in H. destruct H as ([] & L%pass_ok & H). injection H as <- <-. apply Nat.leb_le in L. exists d. tauto.
  - intros (d & -> & M & L & -> & ->). rewrite (proj2 (padding_ok (framed d) d) (conj eq_refl M)). cbn [rbind]. apply Nat.leb_le in L. rewrite L. reflexivity.
Qed.
Lemma num_first d w off n : (off + n <= w)%nat -> num (firstn w d) off n = num d off n.
Proof. intros H. unfold num. f_equal. rewrite skipn_firstn_comm, firstn_firstn. f_equal. lia. Qed.
Lemma b_slab_some r : (32 <= length r)%nat -> exists x, b_slab r = Ok x.
Proof. intros L. unfold b_slab. apply Nat.leb_le in L. rewrite L. cbn [passert rbind slab_head split]. eauto. Qed.
Lemma b_book_ok sd b x : b_book sd b = Ok x <-> exists d, b = framed d /\ (length d mod 8 = 0)%nat /\ (40 <= length d)%nat /\ num d 0 8 = 1 + side_flag sd /\ b_slab (skipn 8 d) = Ok x.
Proof.
  unfold b_book. split.
  - intros H. apply rbind_ok in H. destruct H as ([h r] & S%strip_ok & H). destruct S as (d & -> & M & L & -> & ->). cbv zeta in H. apply rbind_ok in H. destruct H as ([] & _ & H). apply rbind_ok in H. destruct H as ([] & F%check_ok & H).
    rewrite num_first in F by lia. exists d. repeat (split; [assumption || reflexivity|]). split; [|split; [unfold AF_Initialized in F; lia|assumption]].
    unfold b_slab in H. apply rbind_ok in H. destruct H as ([] & L2%pass_ok & _). apply Nat.leb_le in L2. rewrite skipn_length in L2. lia.
  - intros (d & -> & M & L & F & S). rewrite (proj2 (strip_ok 8 (framed d) _ _)) by (exists d; repeat split; try assumption; lia). cbn [rbind]. cbv zeta. rewrite num_first by lia. rewrite F, S. destruct sd; reflexivity.
Qed.
Lemma b_req_q_ok b x : b_req_q b = Ok x <-> exists d, b = framed d /\ (length d mod 8 = 0)%nat /\ (32 <= length d)%nat /\ num d 0 8 = 9 /\ x = (num d 16 8, num d 24 8).
Proof.
  unfold b_req_q. split.
  - intros H. apply rbind_ok in H. destruct H as ([h r] & S%strip_ok & H). destruct S as (d & -> & M & L & -> & ->). cbv zeta in H. apply rbind_ok in H. destruct H as ([] & _ & H). apply rbind_ok in H. destruct H as ([] & F%check_ok & H). apply Ok_eq in H. subst x.
    rewrite !num_first in * by lia. exists d. repeat (split; [assumption || reflexivity|]). split; [unfold AF_Initialized, AF_RequestQueue in F; lia|reflexivity].
  - intros (d & -> & M & L & F & ->). rewrite (proj2 (strip_ok 32 (framed d) _ _)) by (exists d; repeat split; try assumption; lia). cbn [rbind]. cbv zeta. rewrite !num_first by lia. rewrite F. reflexivity.
Qed.
Lemma b_event_q_ok b x : b_event_q b = Ok x <-> exists d, b = framed d /\ (length d mod 8 = 0)%nat /\ (32 <= length d)%nat /\ num d 0 8 = 17 /\
  x = mkQueue (num d 8 8) (num d 16 8) (num d 24 8) (map dec_event (records 88 (skipn 32 d))).
Proof.
  unfold b_event_q. split.
  - intros H. apply rbind_ok in H. destruct H as ([h r] & S%strip_ok & H). destruct S as (d & -> & M & L & -> & ->). cbv zeta in H. apply rbind_ok in H. destruct H as ([] & _ & H). apply rbind_ok in H. destruct H as ([] & F%check_ok & H). apply Ok_eq in H. subst x.
    rewrite !num_first in * by lia. exists d. repeat (split; [assumption || reflexivity|]). split; [unfold AF_Initialized, AF_EventQueue in F; lia|reflexivity].
  - intros (d & -> & M & L & F & ->). rewrite (proj2 (strip_ok 32 (framed d) _ _)) by (exists d; repeat split; try assumption; lia). cbn [rbind]. cbv zeta. rewrite !num_first by lia. rewrite F. reflexivity.
Qed.
Lemma b_orders_ok b o : b_orders b = Ok o <-> length b = 3228%nat /\ o = dec_oo (inside b).
Proof.
  unfold b_orders, init_padding. split.
  - intros H. apply rbind_ok in H. destruct H as ([d b'] & P & H). apply rbind_ok in P. destruct P as ([] & L%check_ok & P). apply rbind_ok in P. destruct P as ([] & M%check_ok & P). injection P as <- <-.
    apply rbind_ok in H. destruct H as ([] & Q%pass_ok & H). injection H as <-. split; [|reflexivity]. apply Nat.leb_le in L. apply Nat.eqb_eq in Q. rewrite inside_len in Q by assumption. lia.
  - intros [L ->]. rewrite L. change (12 <=? 3228)%nat with true. cbn [check rbind]. assert (Q : length (inside b) = 3216%nat) by (rewrite inside_len; lia). rewrite Q. change (3216 mod 8 =? 0)%nat with true. cbn [check rbind]. rewrite Q. change (3216 =? 3216)%nat with true. reflexivity.
Qed.

(** ** Kinds *)
(** The flags of each kind, written out *)
Definition kind_flags (k : kind) : list Z :=
  match k with KMarket => [3; 131; 515; 1539; 643; 1667] | KOrders => [0; 5] | KBook Bid => [33] | KBook Ask => [65] | KReq => [9] | KEvent => [17] end.

Lemma load_orders_flags b pk ex m w r a o : b_load_orders b pk ex m w r a = Ok o -> exists o0, b_orders b = Ok o0 /\ (oo_flags o0 = 0 \/ oo_flags o0 = 5).
Proof.
  unfold b_load_orders. intros H. apply rbind_ok in H. destruct H as ([] & _ & H). apply rbind_ok in H. destruct H as (o0 & H0 & H). exists o0. split; [assumption|].
  destruct (oo_flags o0 =? 0) eqn:Q; [left; lia|right]. apply rbind_ok in H. destruct H as (o1 & I & H). apply Ok_eq in I. subst o1. apply rbind_ok in H. destruct H as ([] & F & _).
  unfold oo_check_flags in F. apply rbind_ok in F. destruct F as ([] & _ & F%check_ok). unfold OO_FLAGS in F. change (Z.lor _ _) with 5 in F. lia.
Qed.
Lemma inside_flags b : (20 <= length b)%nat -> num (inside b) 0 8 = num b 5 8.
Proof. intros L. unfold inside, num. cbn [skipn]. rewrite firstn_firstn. f_equal. f_equal. lia. Qed.
Lemma accepts_flags k b : accepts k b -> (20 <= length b)%nat /\ In (num b 5 8) (kind_flags k).
Proof.
  destruct k as [| |sd| |]; cbn [accepts kind_flags].
  - intros (m & H). apply b_market_ok in H. destruct H as (d & -> & H). rewrite framed_len. assert (L : (8 <= length d)%nat) by (destruct H as [[-> _]|[-> _]]; lia). rewrite flags_in by assumption. split; [lia|].
    destruct H as [(_ & -> & H)|(_ & -> & H)]; rewrite ?market_flags, ?market2_flags in H; cbn [In]; intuition.
  - intros (pk & ex & m & w & r & a & o & H). apply load_orders_flags in H. destruct H as (o0 & H & F). apply b_orders_ok in H. destruct H as [L ->]. rewrite oo_flags_of, inside_flags in F by lia. split; [lia|]. cbn [In]. intuition.
  - intros (x & H). apply b_book_ok in H. destruct H as (d & -> & _ & L & F & _). rewrite framed_len, flags_in by lia. split; [lia|]. rewrite F. destruct sd; cbn; auto.
  - intros (x & H). apply b_req_q_ok in H. destruct H as (d & -> & _ & L & F & _). rewrite framed_len, flags_in by lia. split; [lia|]. rewrite F. cbn; auto.
  - intros (x & H). apply b_event_q_ok in H. destruct H as (d & -> & _ & L & F & _). rewrite framed_len, flags_in by lia. split; [lia|]. rewrite F. cbn; auto.
Qed.
Lemma kinds_exclusive k k' b : accepts k b -> accepts k' b -> k = k'.
Proof.
  intros H H'. apply accepts_flags in H, H'. destruct H as [_ H], H' as [_ H']. destruct k as [| |[]| |], k' as [| |[]| |]; try reflexivity; exfalso; cbn [kind_flags In] in H, H'; lia.
Qed.
Lemma accepts_framed k b : accepts k b -> k <> KOrders -> exists d, b = framed d /\ (length d mod 8 = 0)%nat.
Proof.
  destruct k as [| |sd| |]; cbn [accepts]; intros H N; try congruence.
  - destruct H as (m & H). apply b_market_ok in H. destruct H as (d & -> & H). exists d. split; [reflexivity|]. destruct H as [[-> _]|[-> _]]; reflexivity.
  - destruct H as (x & H). apply b_book_ok in H. destruct H as (d & -> & M & _). eauto.
  - destruct H as (x & H). apply b_req_q_ok in H. destruct H as (d & -> & M & _). eauto.
  - destruct H as (x & H). apply b_event_q_ok in H. destruct H as (d & -> & M & _). eauto.
Qed.
Lemma framed_padded d : padded (framed d).
Proof.
  split; [reflexivity|]. rewrite framed_len. unfold framed. replace (length d + 12 - 7)%nat with (length (HEAD ++ d)) by (rewrite app_length; cbn; lia). rewrite app_assoc, skipn_app, skipn_all, Nat.sub_diag. reflexivity.
Qed.
Lemma padded_framed b : (12 <= length b)%nat -> padded b -> b = framed (inside b).
Proof. intros L [H T]. rewrite (cut b L) at 1. rewrite H, T. reflexivity. Qed.
Lemma mod12 n : ((n + 12) mod 8 = 4)%nat <-> (n mod 8 = 0)%nat.
Proof. pose proof (Nat.div_mod n 8). pose proof (Nat.div_mod (n + 12) 8). pose proof (Nat.mod_upper_bound n 8). pose proof (Nat.mod_upper_bound (n + 12) 8). lia. Qed.
Lemma framed_kind k d : k <> KOrders -> accepts k (framed d) <-> fits_kind k (framed d).
Proof.
  intros N. assert (ML : (8 <= length d)%nat -> num (framed d) 5 8 = num d 0 8) by apply flags_in. destruct k as [| |sd| |]; try congruence; cbn [accepts fits_kind]; rewrite framed_len, ?mod12.
  - split.
    + intros (m & H). apply b_market_ok in H. destruct H as (d' & E & H). apply (f_equal inside) in E. rewrite !inside_framed in E. subst d'.
      assert (L : (8 <= length d)%nat) by (destruct H as [[-> _]|[-> _]]; lia). rewrite ML by assumption.
      destruct H as [(L1 & -> & H)|(L1 & -> & H)]; rewrite ?market_flags, ?market2_flags in H; rewrite L1; [left|right]; (split; [lia|]); cbn [In]; intuition.
    + intros [(L & F)|(L & F)]; rewrite ML in F by lia.
      * exists (dec_market d). apply b_market_ok. exists d. split; [reflexivity|]. left. rewrite market_flags. split; [lia|]. split; [reflexivity|]. intuition.
      * exists (dec_market2 d). apply b_market_ok. exists d. split; [reflexivity|]. right. rewrite market2_flags. split; [lia|]. split; [reflexivity|]. cbn [In] in F. intuition.
  - split.
    + intros (x & H). apply b_book_ok in H. destruct H as (d' & E & M & L & F & _). apply (f_equal inside) in E. rewrite !inside_framed in E. subst d'. rewrite ML by lia. split; [assumption|]. split; [lia|]. rewrite F. destruct sd; reflexivity.
    + intros (M & L & F). rewrite ML in F by lia. destruct (b_slab_some (skipn 8 d)) as [x X]; [rewrite skipn_length; lia|]. exists x. apply b_book_ok. exists d. repeat (split; [assumption || reflexivity || lia|]). split; [|assumption]. rewrite F. destruct sd; reflexivity.
  - split.
    + intros (x & H). apply b_req_q_ok in H. destruct H as (d' & E & M & L & F & _). apply (f_equal inside) in E. rewrite !inside_framed in E. subst d'. rewrite ML by lia. split; [assumption|]. split; [lia|]. assumption.
    + intros (M & L & F). rewrite ML in F by lia. eexists. apply b_req_q_ok. exists d. repeat (split; [assumption || reflexivity || lia|]). reflexivity.
  - split.
    + intros (x & H). apply b_event_q_ok in H. destruct H as (d' & E & M & L & F & _). apply (f_equal inside) in E. rewrite !inside_framed in E. subst d'. rewrite ML by lia. split; [assumption|]. split; [lia|]. assumption.
    + intros (M & L & F). rewrite ML in F by lia. eexists. apply b_event_q_ok. exists d. repeat (split; [assumption || reflexivity || lia|]). reflexivity.
Qed.
Lemma fits_len k b : fits_kind k b -> (44 <= length b)%nat.
Proof. destruct k; cbn [fits_kind]; lia. Qed.
Lemma accepts_exactly k b : k <> KOrders -> accepts k b <-> padded b /\ fits_kind k b.
Proof.
  intros N. split.
  - intros H. destruct (accepts_framed k b H N) as (d & -> & _). split; [apply framed_padded|]. apply framed_kind; assumption.
  - intros [P F]. pose proof (fits_len _ _ F). assert (Q : b = framed (inside b)) by (apply padded_framed; [lia|assumption]). rewrite Q in F |- *. apply framed_kind; assumption.
Qed.
Lemma accepts_orders b : accepts KOrders b <-> fits_kind KOrders b.
Proof.
  cbn [accepts fits_kind]. split.
  - intros (pk & ex & m & w & r & a & o & H). apply load_orders_flags in H. destruct H as (o0 & H & F). apply b_orders_ok in H. destruct H as [L ->]. rewrite oo_flags_of, inside_flags in F by lia. tauto.
  - intros [L F]. set (o := dec_oo (inside b)).
    assert (FO : oo_flags o = num b 5 8) by (unfold o; rewrite oo_flags_of; apply inside_flags; lia).
    exists true, (fun _ => true), (mkMarket 3 (oo_market o) 0 0 0 0 0 0 0 0 0 0 0 0 0 0 0 0 0 0 0 0 0), (Some (oo_owner o)), (Some (mkClock 0 (fun _ _ => true))), None.
    unfold b_load_orders. cbn [check rbind]. rewrite (proj2 (b_orders_ok b o) (conj L eq_refl)). cbn [rbind].
    destruct F as [F|F]; rewrite FO, F.
    + cbn [Z.eqb]. change (opt_eqb None (oo_authority _)) with true. cbn [check rbind ok_or]. unfold oo_init. rewrite FO, F. cbn [Z.eqb check rbind m_own]. unfold oo_check_flags. cbn [oo_flags oo_market oo_owner]. rewrite !Z.eqb_refl. eexists. reflexivity.
    + change (5 =? 0) with false. cbn [rbind]. unfold oo_check_flags. rewrite FO, F. change (flags_known 5) with true. change (5 =? OO_FLAGS) with true. cbn [check rbind m_own]. rewrite !Z.eqb_refl. eexists. reflexivity.
Qed.

(** ** Fresh accounts *)
Lemma fresh_flags b : b_fresh b = true -> (20 <= length b)%nat /\ num b 5 8 = 0.
Proof.
  unfold b_fresh. intros H. apply andb_prop in H. destruct H as [H _]. apply andb_prop in H. destruct H as [H F]. apply andb_prop in H. destruct H as [H _]. apply andb_prop in H. destruct H as [_ L].
  apply Nat.leb_le in L. apply same_bytes_ok in F. split; [assumption|]. unfold num. rewrite F. reflexivity.
Qed.
Lemma fresh_unused b k : b_fresh b = true -> accepts k b -> k = KOrders.
Proof. intros F A. apply fresh_flags in F. destruct F as [_ F]. apply accepts_flags in A. destruct A as [_ A]. rewrite F in A. destruct k as [| |[]| |]; cbn [kind_flags In] in A; try reflexivity; lia. Qed.
Lemma zero_repeat b : all_zero b = true -> b = repeat 0 (length b).
Proof. induction b as [|x b IH]; [reflexivity|]. cbn [all_zero forallb length repeat]. intros H. apply andb_prop in H. destruct H as [X H]. f_equal; [lia|apply IH; assumption]. Qed.
Lemma all_zero_repeat n : all_zero (repeat 0 n) = true.
Proof. induction n; [reflexivity|]. cbn [repeat all_zero forallb]. rewrite Z.eqb_refl. assumption. Qed.
Lemma skipn_repeat {A} (x : A) k n : skipn k (repeat x n) = repeat x (n - k).
Proof. revert n. induction k; intros n; [rewrite Nat.sub_0_r; reflexivity|]. destruct n; [reflexivity|]. cbn [repeat skipn]. rewrite IHk. reflexivity. Qed.
Lemma firstn_repeat {A} (x : A) k n : (k <= n)%nat -> firstn k (repeat x n) = repeat x k.
Proof. revert n. induction k; intros n H; [reflexivity|]. destruct n; [lia|]. cbn [repeat firstn]. rewrite IHk by lia. reflexivity. Qed.
Lemma zero_fresh b : all_zero b = true -> (length b mod 8 = 4)%nat -> (20 <= length b)%nat -> b_fresh b = true.
Proof.
  intros Z M L. unfold b_fresh. rewrite M. replace (20 <=? length b)%nat with true by (symmetry; apply Nat.leb_le; assumption). change (4 =? 4)%nat with true. cbn [andb].
  set (n := length b) in *. rewrite (zero_repeat b Z). fold n. rewrite !skipn_repeat, !firstn_repeat by lia. replace (n - (n - 7))%nat with 7%nat by lia. reflexivity.
Qed.
