(** The loaders that read bytes agree with the loaders of Store.v on the view of the bytes, and records survive being written. *)
From Verif Require Import Base BaseProofs Fees Queue Codec Critbit Market Matching Instr InstrProofs Store Process Borsh BorshProofs Layout LayoutSpec LayoutProofs.

Definition view_of (d : bytes) : adata :=
  let f := num d 0 8 in
  if (length d =? 376)%nat && existsb (Z.eqb f) [3; 131] then DMarket (dec_market d)
  else if (length d =? 1464)%nat && existsb (Z.eqb f) [515; 1539; 643; 1667] then DMarket (dec_market2 d)
  else if (length d =? 3216)%nat && existsb (Z.eqb f) [5; 256] then DOO (dec_oo d)
  else if (32 <=? length d)%nat && (f =? 9) then DReqQ (num d 16 8, num d 24 8)
  else if (32 <=? length d)%nat && (f =? 17) then DEventQ (mkQueue (num d 8 8) (num d 16 8) (num d 24 8) (map dec_event (records 88 (skipn 32 d))))
  else if (40 <=? length d)%nat && (f =? 33) then match b_slab (skipn 8 d) with Ok x => DSlab Bid x | _ => DOther end
  else if (40 <=? length d)%nat && (f =? 65) then match b_slab (skipn 8 d) with Ok x => DSlab Ask x | _ => DOther end
  else DOther.
Lemma view_framed d : (length d mod 8 = 0)%nat -> view (framed d) = view_of d.
Proof. intros M. unfold view. rewrite framed_not_zero, (proj2 (padding_ok (framed d) d) (conj eq_refl M)). reflexivity. Qed.
Lemma view_zero b : all_zero b = true -> view b = DZero.
Proof. intros Z. unfold view. rewrite Z. reflexivity. Qed.
Ltac flag_cases f := rewrite f; cbn [existsb Z.eqb Pos.eqb orb]; rewrite ?Bool.andb_false_r, ?Bool.andb_true_r.
Ltac all_f := rewrite ?Bool.andb_false_r, ?Bool.andb_true_r.

Lemma existsb_in f l : existsb (Z.eqb f) l = true <-> In f l.
Proof. rewrite existsb_exists. split; [intros (x & I & E); apply Z.eqb_eq in E; subst; assumption|intros I; exists f; split; [assumption|apply Z.eqb_refl]]. Qed.
(** Each view, inverted *)
Lemma view_inv d : match view_of d with
  | DMarket m => (length d = 376%nat /\ m = dec_market d /\ In (num d 0 8) [3; 131]) \/ (length d = 1464%nat /\ m = dec_market2 d /\ In (num d 0 8) [515; 1539; 643; 1667])
  | DOO o => length d = 3216%nat /\ o = dec_oo d /\ In (num d 0 8) [5; 256]
  | DReqQ x => (32 <= length d)%nat /\ num d 0 8 = 9 /\ x = (num d 16 8, num d 24 8)
  | DEventQ q => (32 <= length d)%nat /\ num d 0 8 = 17 /\ q = mkQueue (num d 8 8) (num d 16 8) (num d 24 8) (map dec_event (records 88 (skipn 32 d)))
  | DSlab sd x => (40 <= length d)%nat /\ num d 0 8 = 1 + side_flag sd /\ b_slab (skipn 8 d) = Ok x
  | DOther => True
  | _ => False
  end.
Proof.
  unfold view_of. cbv zeta.
  destruct (_ && _) eqn:A1; [apply andb_prop in A1; destruct A1 as [L%Nat.eqb_eq F%existsb_in]; auto|]. destruct (_ && _) eqn:A2 in |- *; [apply andb_prop in A2; destruct A2 as [L%Nat.eqb_eq F%existsb_in]; auto|].
  destruct (_ && _) eqn:A3 in |- *; [apply andb_prop in A3; destruct A3 as [L%Nat.eqb_eq F%existsb_in]; auto|].
  destruct (_ && _) eqn:A4 in |- *; [apply andb_prop in A4; destruct A4 as [L%Nat.leb_le F%Z.eqb_eq]; auto|].
  destruct (_ && _) eqn:A5 in |- *; [apply andb_prop in A5; destruct A5 as [L%Nat.leb_le F%Z.eqb_eq]; auto|].
  destruct (_ && _) eqn:A6 in |- *; [apply andb_prop in A6; destruct A6 as [L%Nat.leb_le F%Z.eqb_eq]; destruct (b_slab (skipn 8 d)) eqn:B; auto|].
  destruct (_ && _) eqn:A7 in |- *; [apply andb_prop in A7; destruct A7 as [L%Nat.leb_le F%Z.eqb_eq]; destruct (b_slab (skipn 8 d)) eqn:B; auto|]. exact I.
Qed.
Lemma view_market1 d : length d = 376%nat -> In (num d 0 8) [3; 131] -> view_of d = DMarket (dec_market d).
Proof. intros L F. unfold view_of. cbv zeta. rewrite (proj2 (Nat.eqb_eq _ _) L), (proj2 (existsb_in _ _) F). reflexivity. Qed.
Lemma view_market2 d : length d = 1464%nat -> In (num d 0 8) [515; 1539; 643; 1667] -> view_of d = DMarket (dec_market2 d).
Proof. intros L F. unfold view_of. cbv zeta. rewrite (proj2 (existsb_in _ _) F), L. reflexivity. Qed.
Lemma view_orders d : length d = 3216%nat -> In (num d 0 8) [5; 256] -> view_of d = DOO (dec_oo d).
Proof. intros L F. unfold view_of. cbv zeta. rewrite (proj2 (existsb_in _ _) F), L. reflexivity. Qed.
Lemma view_req d : (32 <= length d)%nat -> num d 0 8 = 9 -> view_of d = DReqQ (num d 16 8, num d 24 8).
Proof. intros L%Nat.leb_le F. unfold view_of. cbv zeta. rewrite F, L. cbn [existsb Z.eqb Pos.eqb orb]. all_f. reflexivity. Qed.
Lemma view_event d : (32 <= length d)%nat -> num d 0 8 = 17 -> view_of d = DEventQ (mkQueue (num d 8 8) (num d 16 8) (num d 24 8) (map dec_event (records 88 (skipn 32 d)))).
Proof. intros L%Nat.leb_le F. unfold view_of. cbv zeta. rewrite F, L. cbn [existsb Z.eqb Pos.eqb orb]. all_f. reflexivity. Qed.
Lemma view_book d sd x : (40 <= length d)%nat -> num d 0 8 = 1 + side_flag sd -> b_slab (skipn 8 d) = Ok x -> view_of d = DSlab sd x.
Proof. intros L%Nat.leb_le F B. unfold view_of. cbv zeta. rewrite F, L, B. destruct sd; cbn [side_flag]; unfold AF_Bids, AF_Asks; change (1 + 32) with 33; change (1 + 64) with 65; cbn [existsb Z.eqb Pos.eqb orb]; all_f; reflexivity. Qed.

(** ** Agreement *)
Lemma proper_cases b : proper b -> all_zero b = true \/ exists d, b = framed d /\ (length d mod 8 = 0)%nat /\ view b = view_of d /\ (8 <= length d)%nat /\ num d 0 8 <> 0.
Proof. intros [Z|(d & -> & M & L & F)]; [left; assumption|right]. exists d. rewrite view_framed by assumption. auto. Qed.
Lemma framed_inj a b : framed a = framed b -> a = b.
Proof. intros H. apply (f_equal inside) in H. rewrite !inside_framed in H. assumption. Qed.

Lemma check_v1 f allow : In f [3; 131] -> check_market_flags f allow = Ok tt <-> f = 3 \/ allow = true /\ f = 131.
Proof. intros F. cbn [In] in F. split; [|intros [-> |[-> ->]]; try destruct allow; reflexivity]. destruct F as [<-|[<-|[]]]; [auto|destruct allow; [auto|intros H; discriminate H]]. Qed.
Lemma check_v2 f allow : In f [515; 1539; 643; 1667] -> check_market_flags f allow = Ok tt <-> f = 515 \/ f = 1539 \/ allow = true /\ (f = 643 \/ f = 1667).
Proof. intros F. cbn [In] in F. split; [|intros [-> |[-> |[-> [-> | ->]]]]; try destruct allow; reflexivity]. destruct F as [<-|[<-|[<-|[<-|[]]]]]; auto; destruct allow; auto; intros H; discriminate H. Qed.

Lemma agree_market e s k b allow m : proper b -> holds s k b -> a_prog (sget s k) = e_prog e ->
  load_market e s k allow = Ok m <-> b_market b allow = Ok m.
Proof.
  intros P [D _] PR. unfold load_market. rewrite D, PR, Z.eqb_refl. cbn [check rbind]. destruct (proper_cases b P) as [Z|(d & -> & M & V & L & F)].
  - rewrite view_zero by assumption. split; intros H; [discriminate|]. apply b_market_ok in H. destruct H as (d & E & _). destruct (zero_framed b d Z E).
  - rewrite V. split.
    + intros H. pose proof (view_inv d) as I. destruct (view_of d) as [|m'| | | | | | |]; try discriminate. apply rbind_ok in H. destruct H as ([] & C & H). apply Ok_eq in H. subst m'. apply b_market_ok. exists d. split; [reflexivity|].
      destruct I as [(LL & -> & FF)|(LL & -> & FF)]; [left|right]; (split; [assumption|]; split; [reflexivity|]); rewrite ?market_flags, ?market2_flags in *; [apply check_v1|apply check_v2]; assumption.
    + intros H. apply b_market_ok in H. destruct H as (d' & E & H). apply framed_inj in E. subst d'.
      destruct H as [(LL & -> & FF)|(LL & -> & FF)]; rewrite ?market_flags, ?market2_flags in FF.
      * assert (IN : In (num d 0 8) [3; 131]) by (cbn [In]; intuition). rewrite view_market1 by assumption. rewrite market_flags, (proj2 (check_v1 _ allow IN)) by assumption. reflexivity.
      * assert (IN : In (num d 0 8) [515; 1539; 643; 1667]) by (cbn [In]; intuition). rewrite view_market2 by assumption. rewrite market2_flags, (proj2 (check_v2 _ allow IN)) by assumption. reflexivity.
Qed.
Lemma agree_book s k b sd x : proper b -> holds s k b -> load_slab s sd k k = Ok x <-> b_book sd b = Ok x.
Proof.
  intros P [D _]. unfold load_slab. rewrite D, Z.eqb_refl. cbn [check rbind]. destruct (proper_cases b P) as [Z|(d & -> & M & V & L & F)].
  - rewrite view_zero by assumption. split; intros H; [discriminate|]. apply b_book_ok in H. destruct H as (d & E & _). destruct (zero_framed b d Z E).
  - rewrite V. split.
    + intros H. pose proof (view_inv d) as I. destruct (view_of d) as [| | | |sd' x'| | | |]; try discriminate. apply rbind_ok in H. destruct H as ([] & C%check_ok & H). apply Ok_eq in H. subst x'.
      apply b_book_ok. exists d. assert (sd' = sd) by (destruct sd, sd'; try reflexivity; discriminate). subst. destruct I as (? & ? & ?). auto.
    + intros H. apply b_book_ok in H. destruct H as (d' & E & M2 & LL & FF & B). apply framed_inj in E. subst d'. rewrite (view_book d sd x) by assumption. destruct sd; reflexivity.
Qed.
Lemma agree_req s m b x : proper b -> holds s (m_req_q m) b -> load_req_q s m (m_req_q m) = Ok x <-> b_req_q b = Ok x.
Proof.
  intros P [D _]. unfold load_req_q. rewrite D, Z.eqb_refl. cbn [check rbind]. destruct (proper_cases b P) as [Z|(d & -> & M & V & L & F)].
  - rewrite view_zero by assumption. split; intros H; [discriminate|]. apply b_req_q_ok in H. destruct H as (d & E & _). destruct (zero_framed b d Z E).
  - rewrite V. split.
    + intros H. pose proof (view_inv d) as I. destruct (view_of d) as [| |x'| | | | | |]; try discriminate. apply Ok_eq in H. subst x'.
      apply b_req_q_ok. exists d. destruct I as (? & ? & ?). auto.
    + intros H. apply b_req_q_ok in H. destruct H as (d' & E & M2 & LL & FF & ->). apply framed_inj in E. subst d'. rewrite view_req by assumption. reflexivity.
Qed.
Lemma agree_event s m b x : proper b -> holds s (m_event_q m) b -> load_event_q s m (m_event_q m) = Ok x <-> b_event_q b = Ok x.
Proof.
  intros P [D _]. unfold load_event_q. rewrite D, Z.eqb_refl. cbn [check rbind]. destruct (proper_cases b P) as [Z|(d & -> & M & V & L & F)].
  - rewrite view_zero by assumption. split; intros H; [discriminate|]. apply b_event_q_ok in H. destruct H as (d & E & _). destruct (zero_framed b d Z E).
  - rewrite V. split.
    + intros H. pose proof (view_inv d) as I. destruct (view_of d) as [| | |x'| | | | |]; try discriminate. apply Ok_eq in H. subst x'.
      apply b_event_q_ok. exists d. destruct I as (? & ? & ?). auto.
    + intros H. apply b_event_q_ok in H. destruct H as (d' & E & M2 & LL & FF & ->). apply framed_inj in E. subst d'. rewrite view_event by assumption. reflexivity.
Qed.

Lemma dec_oo_zero b : all_zero b = true -> length b = 3228%nat -> dec_oo (inside b) = oo_zero.
Proof.
  intros Z L. rewrite (zero_repeat b Z), L. unfold inside. rewrite repeat_length. rewrite skipn_repeat, firstn_repeat by lia. vm_compute. reflexivity.
Qed.
Lemma agree_orders e s k b m owner rent auth o : proper b -> holds s k b ->
  load_orders e s m k owner rent auth = Ok o <->
  b_load_orders b (a_prog (sget s k) =? e_prog e) (fun c => c_exempt c (a_lamports (sget s k)) (Z.of_nat (length b))) m owner rent auth = Ok o.
Proof.
  intros P [D LN]. unfold load_orders, b_load_orders. rewrite D, LN. destruct (_ =? e_prog e); cbn [check rbind]; [|tauto].
  destruct (proper_cases b P) as [Z|(d & -> & M & V & L & F)].
  - rewrite view_zero by assumption. destruct (Nat.eq_dec (length b) 3228) as [L|L].
    + rewrite (proj2 (b_orders_ok b (dec_oo (inside b))) (conj L eq_refl)), (dec_oo_zero b Z L), L. change (Z.of_nat 3228 =? OO_LEN) with true. tauto.
    + replace (Z.of_nat (length b) =? OO_LEN) with false by (symmetry; unfold OO_LEN; lia). cbn [rbind]. split; [discriminate|]. intros H. exfalso. apply rbind_ok in H. destruct H as (x & H & _). apply b_orders_ok in H. lia.
  - rewrite V. pose proof (view_inv d) as I. rewrite framed_len in *. split.
    + intros H. apply rbind_ok in H. destruct H as (x & H1 & H). destruct (view_of d); try discriminate; [destruct I|]. apply Ok_eq in H1. subst oo. destruct I as (LL & -> & FF).
      rewrite (proj2 (b_orders_ok (framed d) (dec_oo d))) by (rewrite inside_framed, framed_len; split; [lia|reflexivity]). cbn [rbind]. exact H.
    + intros H. apply rbind_ok in H. destruct H as (x & H1 & H). pose proof H1 as H2. apply b_orders_ok in H2. rewrite inside_framed, framed_len in H2. destruct H2 as [LL ->].
      assert (F5 : num d 0 8 = 5).
      { rewrite oo_flags_of in H. replace (num d 0 8 =? 0) with false in H by lia. apply rbind_ok in H. destruct H as (o1 & Q & H). apply Ok_eq in Q. subst o1. apply rbind_ok in H. destruct H as ([] & C & _).
        unfold oo_check_flags in C. apply rbind_ok in C. destruct C as ([] & _ & C%check_ok). rewrite oo_flags_of in C. unfold OO_FLAGS in C. change (Z.lor _ _) with 5 in C. lia. }
      rewrite view_orders by (cbn [In]; auto || lia). cbn [rbind]. exact H.
Qed.

(** ** Writing a record and reading it back *)
Ltac encode := unfold encodes; repeat (apply Forall2_cons; [cbn; lia|]); apply Forall2_nil.
Lemma encodes_len fs zs : encodes fs zs -> length zs = length fs.
Proof. induction 1; [reflexivity|]. cbn [length]. congruence. Qed.
Lemma split_join0 fs zs : encodes fs zs -> split fs (join fs zs) = zs.
Proof. intros H. rewrite <- (app_nil_r (join fs zs)). apply split_join. assumption. Qed.
Lemma enc_market_back m : encodes market_fields (market_list m) -> m_oo_auth m = 0 -> m_prune_auth m = 0 -> m_crank_auth m = 0 -> dec_market (enc_market m) = m.
Proof. intros H A B C. unfold dec_market, enc_market. rewrite split_join0 by assumption. destruct m; cbn in *. subst. reflexivity. Qed.
Lemma enc_market2_back m : encodes market2_fields (market_list m ++ [m_oo_auth m; m_prune_auth m; m_crank_auth m; 0]) -> dec_market2 (enc_market2 m) = m.
Proof. intros H. unfold dec_market2, enc_market2. rewrite split_join0 by assumption. destruct m; reflexivity. Qed.
Lemma enc_event_back v : encodes event_fields [e_flags v; e_slot v; e_tier v; 0; e_released v; e_paid v; e_fee v; e_oid v; e_owner v; e_cid v] -> dec_event (enc_event v) = v.
Proof. intros H. unfold dec_event, enc_event. rewrite split_join0 by assumption. destruct v; reflexivity. Qed.

Lemma join_app fs gs zs ys : length zs = length fs -> join (fs ++ gs) (zs ++ ys) = join fs zs ++ join gs ys.
Proof. revert zs. induction fs as [|f fs IH]; intros [|z zs] L; try discriminate; [reflexivity|]. cbn [app join]. rewrite IH by (cbn in L; lia). rewrite app_assoc. reflexivity. Qed.
Lemma encodes_app fs gs zs : encodes (fs ++ gs) zs -> exists a b, zs = a ++ b /\ encodes fs a /\ encodes gs b.
Proof. intros H. apply Forall2_app_inv_l in H. destruct H as (a & b & A & B & ->). eauto. Qed.
Lemma app_len_inj {A} (a b c d : list A) : length a = length c -> a ++ b = c ++ d -> a = c /\ b = d.
Proof. revert c. induction a; intros [|y c] L H; try discriminate; [auto|]. cbn in L, H. injection H as -> H. destruct (IHa c) as [-> ->]; auto. Qed.
Lemma size_app fs gs : size (fs ++ gs) = (size fs + size gs)%nat.
Proof. induction fs as [|f fs IH]; [reflexivity|]. cbn [app size]. rewrite IH. lia. Qed.
Lemma enc_oo_back o : length (oo_orders o) = 128%nat -> length (oo_cids o) = 128%nat -> encodes oo_fields (oo_list o) -> dec_oo (enc_oo o) = o.
Proof.
  intros L1 L2 H. unfold enc_oo, oo_list. unfold oo_list, oo_fields in H. set (hd := [oo_flags o; oo_market o; oo_owner o; oo_coin_free o; oo_coin_total o; oo_pc_free o; oo_pc_total o; oo_free_bits o; oo_bid_bits o]) in *.
  apply encodes_app in H. destruct H as (a & r & E & A & H). apply encodes_app in H. destruct H as (b & r2 & -> & B & H). apply encodes_app in H. destruct H as (c & z & -> & C & Z).
  pose proof (encodes_len _ _ A) as LA. pose proof (encodes_len _ _ B) as LB. pose proof (encodes_len _ _ C) as LC. rewrite repeat_length in LB, LC.
  apply app_len_inj in E; [|rewrite LA; reflexivity]. destruct E as [<- E]. apply app_len_inj in E; [|congruence]. destruct E as [<- E]. apply app_len_inj in E; [|congruence]. destruct E as [<- <-].
  unfold oo_fields. rewrite join_app by assumption. rewrite join_app by (rewrite repeat_length; assumption). rewrite join_app by (rewrite repeat_length; assumption).
  unfold dec_oo. rewrite split_join by assumption. unfold hd at 1. cbv zeta. rewrite join_skip by assumption. rewrite split_join by assumption.
  assert (S1 : size (repeat (U 16) 128) = 2048%nat) by reflexivity. assert (S2 : size (repeat (U 8) 128) = 1024%nat) by reflexivity.
  assert (K1 : forall r, skipn 2048 (join (repeat (U 16) 128) (oo_orders o) ++ r) = r) by (intros r; rewrite <- S1; apply join_skip; rewrite repeat_length; assumption).
  assert (K2 : forall r, skipn 1024 (join (repeat (U 8) 128) (oo_cids o) ++ r) = r) by (intros r; rewrite <- S2; apply join_skip; rewrite repeat_length; assumption).
  change 3072%nat with (2048 + 1024)%nat. rewrite <- (skipn_skipn 1024 2048). rewrite !K1, K2. rewrite split_join by assumption.
  inversion Z as [|? ? ? ? Z1 Z2]; subst. cbn [join wr]. rewrite app_nil_r. rewrite <- (app_nil_r (le 8 _)). cbn [fits] in Z1. rewrite num_here by assumption. destruct o; reflexivity.
Qed.

(** Nodes *)
Lemma enc_node_len n : length (enc_node n) = 72%nat.
Proof. destruct n; unfold enc_node; rewrite join_len; reflexivity. Qed.
Lemma enc_event_len v : length (enc_event v) = 88%nat.
Proof. unfold enc_event. rewrite join_len; reflexivity. Qed.
Lemma enc_node_back n : node_ok n -> dec_node (enc_node n) = n.
Proof.
  destruct n as [|p k a b|l|x|x]; cbn [node_ok]; intros H.
  - reflexivity.
  - unfold dec_node. assert (T : num (enc_node (NInner p k a b)) 0 4 = 1) by (unfold enc_node; cbn [join inner_fields]; apply num_here; lia). rewrite T. cbn [Z.eqb Pos.eqb]. unfold enc_node. rewrite split_join0 by assumption. reflexivity.
  - unfold dec_node. assert (T : num (enc_node (NLeaf l)) 0 4 = 2) by (unfold enc_node; cbn [join leaf_fields]; apply num_here; lia). rewrite T. cbn [Z.eqb Pos.eqb]. unfold enc_node. rewrite split_join0 by assumption. destruct l; reflexivity.
  - unfold dec_node. assert (T : num (enc_node (NFree x)) 0 4 = 3) by (unfold enc_node; cbn [join free_fields]; apply num_here; lia). rewrite T. cbn [Z.eqb Pos.eqb]. f_equal. unfold enc_node. cbn [join free_fields wr]. rewrite num_next by lia; change (4 - 4)%nat with 0%nat. apply num_here. exact H.
  - unfold dec_node. assert (T : num (enc_node (NLastFree x)) 0 4 = 4) by (unfold enc_node; cbn [join free_fields]; apply num_here; lia). rewrite T. cbn [Z.eqb Pos.eqb]. f_equal. unfold enc_node. cbn [join free_fields wr]. rewrite num_next by lia; change (4 - 4)%nat with 0%nat. apply num_here. exact H.
Qed.
(** Arrays of records with left-over bytes *)
Lemma chunks_app w l r : Forall (fun x => length x = w) l -> chunks (length l) w (concat l ++ r) = l.
Proof.
  induction l as [|x l IH]; intros H; [reflexivity|]. inversion H as [|? ? L H2]; subst. cbn [length chunks concat]. rewrite <- app_assoc. f_equal; [rewrite firstn_app, firstn_all, Nat.sub_diag; apply app_nil_r|].
  rewrite skipn_app, skipn_all, Nat.sub_diag. cbn [skipn app]. apply IH. assumption.
Qed.
Lemma concat_len w (l : list bytes) : Forall (fun x => length x = w) l -> length (concat l) = (length l * w)%nat.
Proof. induction l as [|x l IH]; intros H; [reflexivity|]. inversion H; subst. cbn [concat length]. rewrite app_length, IH by assumption. lia. Qed.
Lemma records_app w l r : (0 < w)%nat -> (length r < w)%nat -> Forall (fun x => length x = w) l -> records w (concat l ++ r) = l.
Proof.
  intros W R H. unfold records. replace (length (concat l ++ r) / w)%nat with (length l); [apply chunks_app; assumption|]. rewrite app_length, (concat_len w) by assumption.
  apply (Nat.div_unique _ w _ (length r)); [assumption|]. rewrite (Nat.mul_comm w). reflexivity.
Qed.
Lemma map_back {A} (enc : A -> bytes) (dec : bytes -> A) l : Forall (fun x => dec (enc x) = x) l -> map dec (map enc l) = l.
Proof. induction 1 as [|x l E H IH]; [reflexivity|]. cbn [map]. rewrite E, IH. reflexivity. Qed.

Lemma enc_queue_back q slop : Forall event_ok (q_buf q) -> encodes queue_head [17; q_head q; q_count q; q_seq q] ->
  (length slop < 88)%nat -> (length slop mod 8 = 0)%nat -> view (enc_queue q slop) = DEventQ q.
Proof.
  intros E H S M. unfold enc_queue. set (hd := join queue_head _). assert (LH : length hd = 32%nat) by (unfold hd; rewrite join_len; reflexivity).
  assert (A88 : Forall (fun x => length x = 88%nat) (map enc_event (q_buf q))) by (rewrite Forall_map, Forall_forall; intros x _; apply enc_event_len).
  rewrite view_framed.
  2:{ rewrite !app_length, LH, (concat_len 88) by assumption. rewrite map_length. replace (32 + (length (q_buf q) * 88 + length slop))%nat with (length slop + (4 + length (q_buf q) * 11) * 8)%nat by lia. rewrite Nat.mod_add by lia. assumption. }
  assert (HD : split queue_head (hd ++ concat (map enc_event (q_buf q)) ++ slop) = [17; q_head q; q_count q; q_seq q]) by (apply split_join; assumption).
  pose proof (f_equal (fun l => nth 0 l 0) HD) as H0. pose proof (f_equal (fun l => nth 1 l 0) HD) as H1. pose proof (f_equal (fun l => nth 2 l 0) HD) as H2. pose proof (f_equal (fun l => nth 3 l 0) HD) as H3. clear HD.
  cbn [split queue_head rd width nth] in H0, H1, H2, H3. rewrite !skipn_skipn in *. cbn [Nat.add] in *. rewrite num_skip in H1, H2, H3. cbn [Nat.add] in H1, H2, H3.
  rewrite view_event; [|rewrite app_length; lia|assumption]. f_equal. destruct q as [h c sq buf]; cbn [q_head q_count q_seq q_buf] in *. f_equal; try assumption.
  rewrite skipn_app, skipn_all2, LH by lia. cbn [app]. change (32 - 32)%nat with 0%nat. cbn [skipn].
  rewrite records_app by (assumption || lia). apply map_back. rewrite Forall_forall in *. intros x I. apply enc_event_back. apply E. assumption.
Qed.
Lemma enc_slab_back sd x slop : Forall node_ok (s_nodes x) -> encodes slab_head [s_bump x; s_free_len x; s_free_head x; s_root x; s_leafs x] ->
  (length slop < 72)%nat -> (length slop mod 8 = 0)%nat -> view (enc_slab sd x slop) = DSlab sd x.
Proof.
  intros E H S M. unfold enc_slab. set (fl := join [U 8] _). set (hd := join slab_head _). assert (LF : length fl = 8%nat) by (unfold fl; rewrite join_len; reflexivity). assert (LH : length hd = 32%nat) by (unfold hd; rewrite join_len; reflexivity).
  assert (A72 : Forall (fun x => length x = 72%nat) (map enc_node (s_nodes x))) by (rewrite Forall_map, Forall_forall; intros y _; apply enc_node_len).
  rewrite view_framed.
  2:{ rewrite !app_length, LF, LH, (concat_len 72) by assumption. rewrite map_length. replace (8 + (32 + (length (s_nodes x) * 72 + length slop)))%nat with (length slop + (5 + length (s_nodes x) * 9) * 8)%nat by lia. rewrite Nat.mod_add by lia. assumption. }
  apply view_book.
  - rewrite !app_length. lia.
  - unfold fl. cbn [join wr]. rewrite app_nil_r. apply num_here. destruct sd; cbn; lia.
  - replace (skipn 8 (fl ++ hd ++ concat (map enc_node (s_nodes x)) ++ slop)) with (hd ++ concat (map enc_node (s_nodes x)) ++ slop).
    2:{ rewrite skipn_app, skipn_all2, LF by lia. reflexivity. }
    unfold b_slab. replace (32 <=? _)%nat with true by (symmetry; apply Nat.leb_le; rewrite app_length; lia). cbn [passert rbind]. unfold hd at 1. rewrite split_join by assumption. f_equal.
    replace (skipn 32 (hd ++ concat (map enc_node (s_nodes x)) ++ slop)) with (concat (map enc_node (s_nodes x)) ++ slop).
    2:{ rewrite skipn_app, skipn_all2, LH by lia. reflexivity. }
    rewrite records_app by (assumption || lia). rewrite map_back; [destruct x; reflexivity|]. rewrite Forall_forall in *. intros y I. apply enc_node_back. apply E. assumption.
Qed.
Lemma enc_reqs_back rq head rest : encodes queue_head [9; head; fst rq; snd rq] -> (length rest mod 8 = 0)%nat -> view (enc_reqs rq head rest) = DReqQ rq.
Proof.
  intros H M. unfold enc_reqs. set (hd := join queue_head _). assert (LH : length hd = 32%nat) by (unfold hd; rewrite join_len; reflexivity).
  rewrite view_framed by (rewrite app_length, LH; replace (32 + length rest)%nat with (length rest + 4 * 8)%nat by lia; rewrite Nat.mod_add by lia; assumption).
  assert (HD : split queue_head (hd ++ rest) = [9; head; fst rq; snd rq]) by (apply split_join; assumption).
  pose proof (f_equal (fun l => nth 0 l 0) HD) as H0. pose proof (f_equal (fun l => nth 1 l 0) HD) as H1. pose proof (f_equal (fun l => nth 2 l 0) HD) as H2. pose proof (f_equal (fun l => nth 3 l 0) HD) as H3. clear HD.
  cbn [split queue_head rd width nth] in H0, H1, H2, H3. rewrite !skipn_skipn in *. cbn [Nat.add] in *. rewrite num_skip in H1, H2, H3. cbn [Nat.add] in H1, H2, H3.
  rewrite view_req; [|rewrite app_length; lia|assumption]. f_equal. rewrite (surjective_pairing rq). f_equal; assumption.
Qed.
Lemma enc_market_len m : length (enc_market m) = 376%nat.
Proof. unfold enc_market. rewrite join_len; reflexivity. Qed.
Lemma enc_market2_len m : length (enc_market2 m) = 1464%nat.
Proof. unfold enc_market2. rewrite join_len; reflexivity. Qed.
Lemma enc_market_view m : encodes market_fields (market_list m) -> In (m_flags m) [3; 131] -> m_oo_auth m = 0 -> m_prune_auth m = 0 -> m_crank_auth m = 0 -> view (framed (enc_market m)) = DMarket m.
Proof.
  intros H F A B C. rewrite view_framed by (rewrite enc_market_len; reflexivity). pose proof (enc_market_back m H A B C) as Q. rewrite view_market1; [rewrite Q; reflexivity|apply enc_market_len|].
  rewrite <- market_flags, Q. assumption.
Qed.
Lemma enc_market2_view m : encodes market2_fields (market_list m ++ [m_oo_auth m; m_prune_auth m; m_crank_auth m; 0]) -> In (m_flags m) [515; 1539; 643; 1667] -> view (framed (enc_market2 m)) = DMarket m.
Proof.
  intros H F. rewrite view_framed by (rewrite enc_market2_len; reflexivity). pose proof (enc_market2_back m H) as Q. rewrite view_market2; [rewrite Q; reflexivity|apply enc_market2_len|].
  rewrite <- market2_flags, Q. assumption.
Qed.
Lemma enc_oo_view o : length (oo_orders o) = 128%nat -> length (oo_cids o) = 128%nat -> encodes oo_fields (oo_list o) -> In (oo_flags o) [5; 256] -> view (framed (enc_oo o)) = DOO o.
Proof.
  intros L1 L2 H F. assert (L : length (enc_oo o) = 3216%nat) by (unfold enc_oo; rewrite join_len; [reflexivity|apply encodes_len; assumption]).
  rewrite view_framed by (rewrite L; reflexivity). pose proof (enc_oo_back o L1 L2 H) as Q. rewrite view_orders; [rewrite Q; reflexivity|assumption|]. rewrite <- oo_flags_of, Q. assumption.
Qed.

(** ** The accounts InitializeMarket leaves behind *)
Lemma map_rep {A B} (f : A -> B) x n : map f (repeat x n) = repeat (f x) n.
Proof. induction n; [reflexivity|]. cbn [repeat map]. rewrite IHn. reflexivity. Qed.
Lemma records_zero w n : (0 < w)%nat -> records w (repeat 0 n) = repeat (repeat 0 w) (n / w).
Proof.
  intros W. unfold records. rewrite repeat_length. assert (Q : (w * (n / w) <= n)%nat) by (apply Nat.mul_div_le; lia). remember (n / w)%nat as k. clear Heqk. revert n Q.
  induction k as [|k IH]; intros n Q; [reflexivity|]. cbn [chunks repeat]. rewrite firstn_repeat, skipn_repeat by lia. f_equal. apply IH. lia.
Qed.
Lemma inside_zero b : all_zero b = true -> (12 <= length b)%nat -> inside b = repeat 0 (length b - 12).
Proof. intros Z L. rewrite (zero_repeat b Z) at 1. unfold inside. rewrite repeat_length, skipn_repeat, firstn_repeat by lia. reflexivity. Qed.
Lemma mod4 n : (12 <= n)%nat -> (n mod 8 = 4)%nat -> ((n - 12) mod 8 = 0)%nat.
Proof. intros L H. apply mod12. replace (n - 12 + 12)%nat with n by lia. assumption. Qed.
Lemma init_req_view b : all_zero b = true -> (length b mod 8 = 4)%nat -> (44 <= length b)%nat -> view (init_req_q b) = DReqQ (0, 0).
Proof.
  intros Z M L. unfold init_req_q, put_head. rewrite inside_zero, skipn_repeat by (assumption || lia). apply (enc_reqs_back (0, 0) 0).
  - encode.
  - rewrite repeat_length. change (size queue_head) with 32%nat. replace (length b - 12 - 32)%nat with (length b - 44)%nat by lia. pose proof (mod4 (length b) ltac:(lia) M) as Q.
    replace (length b - 12)%nat with (length b - 44 + 4 * 8)%nat in Q by lia. rewrite Nat.mod_add in Q by lia. assumption.
Qed.
Lemma zslots n k w : 0 < w -> (Z.to_nat k <= n)%nat -> 0 <= k -> Z.to_nat ((Z.of_nat n - k) / w) = ((n - Z.to_nat k) / Z.to_nat w)%nat.
Proof. intros W L K. rewrite Z2Nat.inj_div by lia. f_equal. lia. Qed.
Lemma init_event_view b : all_zero b = true -> (length b mod 8 = 4)%nat -> (44 <= length b)%nat ->
  view (init_event_q b) = DEventQ (mkQueue 0 0 0 (repeat blank_event (Z.to_nat (event_slots (Z.of_nat (length b)))))).
Proof.
  intros Z M L. unfold init_event_q, put_head. rewrite inside_zero, skipn_repeat by (assumption || lia). change (size queue_head) with 32%nat.
  set (hd := join queue_head _). assert (LH : length hd = 32%nat) by (unfold hd; rewrite join_len; reflexivity). replace (length b - 12 - 32)%nat with (length b - 44)%nat by lia.
  rewrite view_framed.
  2:{ rewrite app_length, LH, repeat_length. pose proof (mod4 (length b) ltac:(lia) M) as Q. replace (32 + (length b - 44))%nat with (length b - 12)%nat by lia. assumption. }
  rewrite view_event; [|rewrite app_length; lia|unfold hd; cbn [join queue_head wr]; rewrite <- !app_assoc; apply num_here; cbn; lia].
  replace (num _ 8 8) with 0 by reflexivity. replace (num _ 16 8) with 0 by reflexivity. replace (num _ 24 8) with 0 by reflexivity. f_equal. f_equal.
  replace (skipn 32 (hd ++ repeat 0 (length b - 44))) with (repeat 0 (length b - 44)) by (rewrite skipn_app, skipn_all2, LH by lia; reflexivity).
  rewrite records_zero by lia. unfold event_slots. rewrite zslots by lia. change (Z.to_nat 44) with 44%nat. change (Z.to_nat 88) with 88%nat. rewrite map_rep. f_equal.
Qed.
Lemma init_book_view sd b : all_zero b = true -> (length b mod 8 = 4)%nat -> (52 <= length b)%nat ->
  view (init_book sd b) = DSlab sd (slab_new (Z.to_nat (slab_slots (Z.of_nat (length b))))).
Proof.
  intros Z M L. unfold init_book, put_head. rewrite inside_zero, skipn_repeat by (assumption || lia). change (size [U 8]) with 8%nat.
  set (hd := join [U 8] _). assert (LH : length hd = 8%nat) by (unfold hd; rewrite join_len; reflexivity). replace (length b - 12 - 8)%nat with (length b - 20)%nat by lia.
  rewrite view_framed.
  2:{ rewrite app_length, LH, repeat_length. pose proof (mod4 (length b) ltac:(lia) M) as Q. replace (8 + (length b - 20))%nat with (length b - 12)%nat by lia. assumption. }
  apply view_book.
  - rewrite app_length, repeat_length. lia.
  - unfold hd. cbn [join wr]. rewrite app_nil_r. apply num_here. destruct sd; cbn; lia.
  - replace (skipn 8 (hd ++ repeat 0 (length b - 20))) with (repeat 0 (length b - 20)) by (rewrite skipn_app, skipn_all2, LH by lia; reflexivity).
    unfold b_slab. rewrite repeat_length. replace (32 <=? _)%nat with true by (symmetry; apply Nat.leb_le; lia). cbn [passert rbind].
    replace (repeat 0 (length b - 20)) with (join slab_head [0; 0; 0; 0; 0] ++ repeat 0 (length b - 52)).
    2:{ replace (length b - 20)%nat with (32 + (length b - 52))%nat by lia. rewrite repeat_app. reflexivity. }
    rewrite split_join by encode. f_equal. unfold slab_new. f_equal.
    replace (skipn 32 (join slab_head [0; 0; 0; 0; 0] ++ repeat 0 (length b - 52))) with (repeat 0 (length b - 52)) by reflexivity.
    rewrite records_zero by lia. unfold slab_slots. rewrite zslots by lia. change (Z.to_nat 52) with 52%nat. change (Z.to_nat 72) with 72%nat. rewrite map_rep. f_equal.
Qed.

(** ** Remaining facts *)
Lemma init_padding_ok b d b' : init_padding b = Ok (d, b') -> padded b' /\ inside b' = inside b /\ d = inside b /\ length b' = length b.
Proof.
  unfold init_padding. intros H. apply rbind_ok in H. destruct H as ([] & L%check_ok & H). apply rbind_ok in H. destruct H as ([] & _ & H). apply Ok_eq in H. assert (d = inside b /\ b' = framed (inside b)) as [-> ->] by (unfold framed; split; congruence).
  apply Nat.leb_le in L. split; [apply framed_padded|]. split; [apply inside_framed|]. split; [reflexivity|]. rewrite framed_len, inside_len; lia.
Qed.
Lemma orders_unpadded : exists b, accepts KOrders b /\ num b 5 8 = 5 /\ ~ padded b.
Proof.
  exists (repeat 0 5 ++ le 8 5 ++ repeat 0 3215). split; [apply accepts_orders; split; [vm_compute; reflexivity|right; reflexivity]|]. split; [reflexivity|]. intros [H _]. discriminate H.
Qed.
Lemma fresh_not_blank : exists b x, b_fresh b = true /\ b_book Bid (init_book Bid b) = Ok x /\ s_leafs x = 7.
Proof. exists (repeat 0 13 ++ join slab_head [0; 0; 0; 0; 7] ++ repeat 0 (103 * 69 + 100)). eexists. split; [vm_compute; reflexivity|]. split; vm_compute; reflexivity. Qed.

(** Offsets *)
Lemma skip_framed k d : skipn (5 + k) (framed d) = skipn k (d ++ TAIL).
Proof. reflexivity. Qed.
Lemma num_framed d off n : (off + n <= length d)%nat -> num (framed d) (5 + off) n = num d off n.
Proof. intros H. unfold num. rewrite skip_framed, skipn_app, firstn_app, skipn_length. replace (n - (length d - off))%nat with 0%nat by lia. rewrite firstn_O, app_nil_r. reflexivity. Qed.
Lemma key_framed d off : (off + 32 <= length d)%nat -> key_unle (framed d) (5 + off) = key_unle d off.
Proof. intros H. unfold key_unle. rewrite <- !Nat.add_assoc, !num_framed by lia. reflexivity. Qed.
Lemma key_skip d k off : key_unle (skipn k d) off = key_unle d (k + off).
Proof. unfold key_unle. rewrite !num_skip, !Nat.add_assoc. reflexivity. Qed.
Lemma rd_skip f d k : rd f (skipn k d) = match f with U n => num d k n | K => key_unle d k end.
Proof. destruct f; cbn [rd]; [rewrite num_skip|rewrite key_skip]; rewrite Nat.add_0_r; reflexivity. Qed.
Lemma num_off d off n : (5 <= off)%nat -> (off - 5 + n <= length d)%nat -> num (framed d) off n = num d (off - 5) n.
Proof. intros A B. replace off with (5 + (off - 5))%nat at 1 by lia. apply num_framed. assumption. Qed.
Lemma key_off d off : (5 <= off)%nat -> (off - 5 + 32 <= length d)%nat -> key_unle (framed d) off = key_unle d (off - 5).
Proof. intros A B. replace off with (5 + (off - 5))%nat at 1 by lia. apply key_framed. assumption. Qed.
Lemma market_offsets b allow m : b_market b allow = Ok m ->
  m_flags m = num b 5 8 /\ m_own m = key_unle b 13 /\ m_nonce m = num b 45 8 /\ m_coin_mint m = key_unle b 53 /\ m_pc_mint m = key_unle b 85 /\
  m_coin_vault m = key_unle b 117 /\ m_coin_deposits m = num b 149 8 /\ m_coin_fees m = num b 157 8 /\ m_pc_vault m = key_unle b 165 /\ m_pc_deposits m = num b 197 8 /\
  m_pc_fees m = num b 205 8 /\ m_dust m = num b 213 8 /\ m_req_q m = key_unle b 221 /\ m_event_q m = key_unle b 253 /\ m_bids m = key_unle b 285 /\ m_asks m = key_unle b 317 /\
  m_coin_lot m = num b 349 8 /\ m_pc_lot m = num b 357 8 /\ m_fee_rate m = num b 365 8 /\ m_rebates m = num b 373 8 /\
  (length b = 1476%nat -> m_oo_auth m = key_unle b 381 /\ m_prune_auth m = key_unle b 413 /\ m_crank_auth m = key_unle b 445).
Proof.
  intros H. apply b_market_ok in H. destruct H as (d & -> & H). rewrite framed_len.
  assert (L : (376 <= length d)%nat) by (destruct H as [[-> _]|[-> _]]; lia).
  rewrite !num_off, !key_off by lia.
  destruct H as [(LL & -> & _)|(LL & -> & _)]; repeat split; try (intros; exfalso; lia); try (rewrite key_off by lia); unfold dec_market, dec_market2;
    cbn [split market_fields market2_fields app width m_flags m_own m_nonce m_coin_mint m_pc_mint m_coin_vault m_coin_deposits m_coin_fees m_pc_vault m_pc_deposits m_pc_fees m_dust m_req_q m_event_q m_bids m_asks m_coin_lot m_pc_lot m_fee_rate m_rebates m_oo_auth m_prune_auth m_crank_auth];
    rewrite ?skipn_skipn, ?rd_skip; reflexivity.
Qed.
Lemma nth_split_u n k d i : (i < k)%nat -> nth i (split (repeat (U n) k) d) 0 = num d (i * n) n.
Proof.
  revert d i. induction k as [|k IH]; intros d i H; [lia|]. cbn [repeat split width]. destruct i as [|i]; [reflexivity|]. cbn [nth]. rewrite IH by lia. rewrite num_skip. f_equal.
Qed.
Lemma skip_first k (b r : bytes) : (k <= length b)%nat -> skipn k (firstn k b ++ r) = r.
Proof. revert b. induction k; intros [|x b] H; cbn in H; try lia; try reflexivity. cbn [firstn app skipn]. apply IHk. lia. Qed.
Lemma orders_offsets b o : b_orders b = Ok o ->
  oo_flags o = num b 5 8 /\ oo_market o = key_unle b 13 /\ oo_owner o = key_unle b 45 /\ oo_coin_free o = num b 77 8 /\ oo_coin_total o = num b 85 8 /\
  oo_pc_free o = num b 93 8 /\ oo_pc_total o = num b 101 8 /\ oo_free_bits o = num b 109 16 /\ oo_bid_bits o = num b 125 16 /\
  (forall i, (i < 128)%nat -> nth i (oo_orders o) 0 = num b (141 + 16 * i) 16 /\ nth i (oo_cids o) 0 = num b (2189 + 8 * i) 8) /\ oo_rebates o = num b 3213 8.
Proof.
  intros H. apply b_orders_ok in H. destruct H as [L ->]. assert (LI : length (inside b) = 3216%nat) by (rewrite inside_len; lia).
  assert (N : forall off n, (off + n <= 3216)%nat -> num b (5 + off) n = num (inside b) off n).
  { intros off n Q. rewrite <- LI in Q. transitivity (num (framed (inside b)) (5 + off) n); [|apply num_framed; assumption]. rewrite (cut b) at 1 by lia. unfold num. f_equal.
    rewrite skip_framed. replace (skipn (5 + off) (firstn 5 b ++ inside b ++ skipn (length b - 7) b)) with (skipn off (inside b ++ skipn (length b - 7) b)).
    2:{ rewrite <- (skipn_skipn off 5). f_equal. symmetry. apply skip_first. lia. }
    rewrite !skipn_app, !firstn_app, !skipn_length. replace (n - (length (inside b) - off))%nat with 0%nat by lia. reflexivity. }
  assert (N' : forall off n, (5 <= off)%nat -> (off + n <= 3221)%nat -> num b off n = num (inside b) (off - 5) n) by (intros off n A B; rewrite <- N by lia; f_equal; lia).
  assert (KK : forall off, (5 <= off)%nat -> (off + 32 <= 3221)%nat -> key_unle b off = key_unle (inside b) (off - 5)).
  { intros off A B. unfold key_unle. rewrite !N' by lia. replace (off + 8 - 5)%nat with (off - 5 + 8)%nat by lia. replace (off + 16 - 5)%nat with (off - 5 + 16)%nat by lia. replace (off + 24 - 5)%nat with (off - 5 + 24)%nat by lia. reflexivity. }
  rewrite !N', !KK by lia. unfold dec_oo. set (d := inside b) in *. cbn [split oo_head width]. cbv zeta.
  cbn [oo_flags oo_market oo_owner oo_coin_free oo_coin_total oo_pc_free oo_pc_total oo_free_bits oo_bid_bits oo_orders oo_cids oo_rebates]. rewrite ?skipn_skipn, ?rd_skip.
  repeat split; try reflexivity.
  - rewrite nth_split_u by assumption. rewrite num_skip, N' by lia. f_equal. change (size oo_head) with 136%nat. lia.
  - rewrite nth_split_u by assumption. rewrite num_skip, N' by lia. f_equal. change (size oo_head) with 136%nat. lia.
Qed.
