(** What the token instructions of the pool program change, stated as balances. *)
From Verif Require Import Base BaseProofs Fees Core Instr Store Borsh PoolStore Pool PoolFees.

(** The balance of a token account and the supply of a mint. *)
Definition bal (s : pstore) (k : Z) : Z := match ptoken s k with Some t => t_amount t | None => 0 end.
Definition supply (s : pstore) (m : Z) : Z := match pmint s m with Some i => mi_supply i | None => 0 end.
(** The sum of the changes listed for one account. *)
Fixpoint net (l : list (Z * Z)) (k : Z) : Z := match l with [] => 0 | (k', q) :: r => (if k' =? k then q else 0) + net r k end.
Lemma net_app a b k : net (a ++ b) k = net a k + net b k.
Proof. induction a as [|[k' q] a IH]; cbn [net app]; lia. Qed.
(** Who may move tokens out of an account. *)
Definition can_spend (s : pstore) (k who : Z) : Prop := exists t, ptoken s k = Some t /\ (t_owner t = who \/ t_delegate t = Some who).
(** What a token instruction other than an approval never changes. *)
Definition same_shape (d d' : pdata) : Prop :=
  match d, d' with
  | PBytes b, PBytes b' => b = b'
  | PToken t, PToken t' => t_mint t' = t_mint t /\ t_owner t' = t_owner t /\ t_state t' = t_state t /\ t_close t' = t_close t /\ (t_delegate t' = t_delegate t \/ t_delegate t' = None)
  | PMint m, PMint m' => mi_auth m' = mi_auth m
  | _, _ => False
  end.
Definition tok_frame (s s' : pstore) : Prop :=
  forall k, pa_prog (pget s' k) = pa_prog (pget s k) /\ pa_lamports (pget s' k) = pa_lamports (pget s k) /\ same_shape (pa_data (pget s k)) (pa_data (pget s' k)).
Lemma same_shape_refl d : same_shape d d.
Proof. destruct d; cbn; auto 10. Qed.
Lemma same_shape_trans a b c : same_shape a b -> same_shape b c -> same_shape a c.
Proof.
  destruct a, b, c; cbn; try tauto; try congruence. intros (A1 & A2 & A3 & A4 & A5) (B1 & B2 & B3 & B4 & B5).
  repeat split; try congruence. destruct A5, B5; [left; congruence|right; congruence|right; congruence|right; congruence].
Qed.
Lemma frame_refl s : tok_frame s s. Proof. intros k. auto using same_shape_refl. Qed.
Lemma frame_trans a b c : tok_frame a b -> tok_frame b c -> tok_frame a c.
Proof. intros H1 H2 k. destruct (H1 k) as (A1 & A2 & A3), (H2 k) as (B1 & B2 & B3). repeat split; try congruence. eapply same_shape_trans; eassumption. Qed.

Lemma pfind_pput s k a k' : pfind (pput s k a) k' = if k =? k' then Some a else pfind s k'.
Proof.
  induction s as [|[k0 a0] s IH]; cbn [pput pfind]; [destruct (k =? k'); reflexivity|].
  destruct (Z.eqb_spec k0 k) as [->|N]; cbn [pfind]; [destruct (k =? k'); reflexivity|]. rewrite IH.
  destruct (Z.eqb_spec k k') as [->|]; [|reflexivity]. replace (k0 =? k') with false by lia. reflexivity.
Qed.
Lemma pget_pset s k d k' : pget (pset s k d) k' = if k =? k' then mkPacct (pa_prog (pget s k)) (pa_lamports (pget s k)) d else pget s k'.
Proof. unfold pset, pget at 1. rewrite pfind_pput. destruct (k =? k'); reflexivity. Qed.

(** Replacing the data of one account. *)
Lemma ptoken_data s k t : ptoken s k = Some t <-> pa_prog (pget s k) = spl_id /\ pa_data (pget s k) = PToken t.
Proof.
  unfold ptoken. destruct (Z.eqb_spec (pa_prog (pget s k)) spl_id) as [E|E]; [|split; [discriminate|tauto]].
  destruct (pa_data (pget s k)); split; try discriminate; try (intros [_ H]; discriminate); [intros [= ->]; auto|intros [_ [= ->]]; auto].
Qed.
Lemma pmint_data s k t : pmint s k = Some t <-> pa_prog (pget s k) = spl_id /\ pa_data (pget s k) = PMint t.
Proof.
  unfold pmint. destruct (Z.eqb_spec (pa_prog (pget s k)) spl_id) as [E|E]; [|split; [discriminate|tauto]].
  destruct (pa_data (pget s k)); split; try discriminate; try (intros [_ H]; discriminate); [intros [= ->]; auto|intros [_ [= ->]]; auto].
Qed.
Lemma set_token s k t t' : ptoken s k = Some t -> t_mint t' = t_mint t -> t_owner t' = t_owner t -> t_state t' = t_state t -> t_close t' = t_close t ->
  (t_delegate t' = t_delegate t \/ t_delegate t' = None) ->
  tok_frame s (pset s k (PToken t')) /\ (forall k', bal (pset s k (PToken t')) k' = bal s k' + net [(k, t_amount t' - t_amount t)] k') /\
  (forall m, supply (pset s k (PToken t')) m = supply s m) /\ ptoken (pset s k (PToken t')) k = Some t'.
Proof.
  intros H E1 E2 E3 E4 E5. apply ptoken_data in H. destruct H as [P D].
  assert (K : ptoken (pset s k (PToken t')) k = Some t').
  { apply ptoken_data. rewrite pget_pset, Z.eqb_refl. cbn [pa_prog pa_data]. auto. }
  split; [|split; [|split; [|exact K]]].
  - intros k'. rewrite pget_pset. destruct (Z.eqb_spec k k') as [<-|]; [|auto using same_shape_refl]. cbn [pa_prog pa_lamports pa_data]. rewrite D. cbn. auto 10.
  - intros k'. cbn [net]. unfold bal at 1. destruct (Z.eqb_spec k k') as [<-|N].
    + rewrite K. unfold bal, ptoken. rewrite P, Z.eqb_refl, D. lia.
    + unfold bal, ptoken. rewrite pget_pset. replace (k =? k') with false by lia. lia.
  - intros m. unfold supply, pmint. rewrite pget_pset. destruct (Z.eqb_spec k m) as [<-|]; [|reflexivity]. cbn [pa_prog pa_data]. rewrite P, D, Z.eqb_refl. reflexivity.
Qed.
Lemma set_mint s k i i' : pmint s k = Some i -> mi_auth i' = mi_auth i ->
  tok_frame s (pset s k (PMint i')) /\ (forall k', bal (pset s k (PMint i')) k' = bal s k') /\
  (forall m, supply (pset s k (PMint i')) m = supply s m + if k =? m then mi_supply i' - mi_supply i else 0).
Proof.
  intros H E. apply pmint_data in H. destruct H as [P D]. split; [|split].
  - intros k'. rewrite pget_pset. destruct (Z.eqb_spec k k') as [<-|]; [|auto using same_shape_refl]. cbn [pa_prog pa_lamports pa_data]. rewrite D. cbn. auto 10.
  - intros k'. unfold bal, ptoken. rewrite pget_pset. destruct (Z.eqb_spec k k') as [<-|]; [|reflexivity]. cbn [pa_prog pa_data]. rewrite P, D, Z.eqb_refl. reflexivity.
  - intros m. unfold supply, pmint. rewrite pget_pset. destruct (Z.eqb_spec k m) as [<-|N]; [|lia]. cbn [pa_prog pa_data]. rewrite P, D, Z.eqb_refl. lia.
Qed.
Lemma frame_token s s' k t : tok_frame s s' -> ptoken s k = Some t -> exists t', ptoken s' k = Some t' /\ t_mint t' = t_mint t /\ t_owner t' = t_owner t /\ t_state t' = t_state t /\ t_close t' = t_close t /\ (t_delegate t' = t_delegate t \/ t_delegate t' = None).
Proof.
  intros F H. destruct (F k) as (F1 & _ & F3). apply ptoken_data in H. destruct H as [P D]. rewrite D in F3. destruct (pa_data (pget s' k)) as [|t'|] eqn:D'; try (exfalso; exact F3).
  exists t'. split; [apply ptoken_data; split; [congruence|assumption]|]. cbn in F3. tauto.
Qed.
Lemma frame_token_back s s' k t' : tok_frame s s' -> ptoken s' k = Some t' -> exists t, ptoken s k = Some t /\ t_mint t' = t_mint t /\ t_owner t' = t_owner t /\ t_state t' = t_state t /\ t_close t' = t_close t /\ (t_delegate t' = t_delegate t \/ t_delegate t' = None).
Proof.
  intros F H. destruct (F k) as (F1 & _ & F3). apply ptoken_data in H. destruct H as [P D]. rewrite D in F3. destruct (pa_data (pget s k)) as [|t|] eqn:D'; try (exfalso; exact F3).
  exists t. split; [apply ptoken_data; split; [congruence|assumption]|]. cbn in F3. tauto.
Qed.
Lemma frame_mint s s' k t : tok_frame s s' -> pmint s k = Some t -> exists t', pmint s' k = Some t' /\ mi_auth t' = mi_auth t.
Proof.
  intros F H. destruct (F k) as (F1 & _ & F3). apply pmint_data in H. destruct H as [P D]. rewrite D in F3. destruct (pa_data (pget s' k)) as [| |t'] eqn:D'; try (exfalso; exact F3).
  exists t'. split; [apply pmint_data; split; [congruence|assumption]|]. exact F3.
Qed.
Lemma frame_mint_back s s' k t' : tok_frame s s' -> pmint s' k = Some t' -> exists t, pmint s k = Some t /\ mi_auth t' = mi_auth t.
Proof.
  intros F H. destruct (F k) as (F1 & _ & F3). apply pmint_data in H. destruct H as [P D]. rewrite D in F3. destruct (pa_data (pget s k)) as [| |t] eqn:D'; try (exfalso; exact F3).
  exists t. split; [apply pmint_data; split; [congruence|assumption]|]. exact F3.
Qed.
Lemma frame_spend s s' k who : tok_frame s s' -> can_spend s' k who -> can_spend s k who.
Proof.
  intros F (t' & T & C). destruct (frame_token_back _ _ _ _ F T) as (t & T0 & _ & O & _ & _ & D). exists t. split; [assumption|].
  destruct C as [C|C]; [left; congruence|]. destruct D as [D|D]; [right; congruence|congruence].
Qed.

(** ** The instructions *)
Definition tx_frame (s s' : pstore) (moves : list (Z * Z)) (mints : list (Z * Z)) : Prop :=
  tok_frame s s' /\ (forall k, bal s' k = bal s k + net moves k) /\ (forall m, supply s' m = supply s m + net mints m).
Lemma tx_nil s : tx_frame s s [] [].
Proof. split; [apply frame_refl|]. cbn [net]. split; intros; lia. Qed.
Lemma tx_app s s1 s2 a b c d : tx_frame s s1 a c -> tx_frame s1 s2 b d -> tx_frame s s2 (a ++ b) (c ++ d).
Proof. intros (F1 & B1 & M1) (F2 & B2 & M2). split; [eapply frame_trans; eassumption|]. split; intros; rewrite net_app; [rewrite B2, B1|rewrite M2, M1]; lia. Qed.
Lemma tx_app0 s s1 s2 a b : tx_frame s s1 a [] -> tx_frame s1 s2 b [] -> tx_frame s s2 (a ++ b) [].
Proof. exact (tx_app s s1 s2 a b [] []). Qed.
Ltac rstep H := match type of H with
  | rbind (ok_or ?o _) _ = Ok _ => let x := fresh "x" in let E := fresh "E" in destruct o as [x|] eqn:E; cbn [ok_or rbind] in H; [|discriminate H]
  | rbind (check ?b _) _ = Ok _ => let E := fresh "E" in destruct b eqn:E; cbn [check rbind] in H; [|discriminate H]
  | rbind ?r _ = Ok _ => let x := fresh "x" in let E := fresh "E" in destruct r as [x| |] eqn:E; cbn [rbind] in H; [|discriminate H|discriminate H]
  end.
Lemma opt_eqb_true a b : opt_eqb a b = true <-> a = b.
Proof. destruct a, b; cbn; split; try discriminate; try reflexivity; [intros ->%Z.eqb_eq; reflexivity|intros [= ->]; apply Z.eqb_refl]. Qed.
Lemma is_delegate_true t a : is_delegate t a = true <-> t_delegate t = Some a.
Proof. unfold is_delegate. destruct (t_delegate t) as [d|]; [|split; discriminate]. split; [intros ->%Z.eqb_eq; reflexivity|intros [= ->]; apply Z.eqb_refl]. Qed.
Lemma spender t auth : is_delegate t auth || (t_owner t =? auth) = true -> t_owner t = auth \/ t_delegate t = Some auth.
Proof. intros H. apply orb_prop in H. destruct H as [H|H]; [right; apply is_delegate_true; assumption|left; lia]. Qed.
Lemma used t auth amt x : let t1 := if is_delegate t auth then use_delegate t amt else t in
  let t' := set_amount t1 x in t_mint t' = t_mint t /\ t_owner t' = t_owner t /\ t_state t' = t_state t /\ t_close t' = t_close t /\ (t_delegate t' = t_delegate t \/ t_delegate t' = None) /\ t_amount t' = x.
Proof. cbn zeta. unfold use_delegate, set_amount. destruct (is_delegate t auth); cbn [t_mint t_owner t_state t_close t_delegate t_amount]; [|auto 10]. destruct (_ =? _); auto 10. Qed.

Lemma transfer_ok s src dst auth signed amt s' : p_transfer s src dst auth signed amt = Ok s' ->
  tx_frame s s' [(src, - amt); (dst, amt)] [] /\ can_spend s src auth /\ signed = true /\ amt <= bal s src /\
  (exists ts td, ptoken s src = Some ts /\ ptoken s dst = Some td /\ t_mint ts = t_mint td).
Proof.
  intros H. unfold p_transfer in H. repeat rstep H. apply spender in E5.
  assert (B : bal s src = t_amount x) by (unfold bal; rewrite E; reflexivity).
  assert (Q : tx_frame s s' [(src, - amt); (dst, amt)] []).
  { destruct (Z.eqb_spec src dst) as [<-|N].
    - injection H as <-. split; [apply frame_refl|]. cbn [net]. split; intros; [|lia]. destruct (src =? k); lia.
    - rstep H. injection H as <-.
      destruct (used x auth amt (t_amount x - amt)) as (U1 & U2 & U3 & U4 & U5 & U6). set (t' := set_amount _ (t_amount x - amt)) in *.
      destruct (set_token s src x t' E U1 U2 U3 U4 U5) as (F1 & B1 & S1 & K1).
      assert (E0' : ptoken (pset s src (PToken t')) dst = Some x0).
      { apply ptoken_data. apply ptoken_data in E0. rewrite pget_pset. replace (src =? dst) with false by lia. assumption. }
      destruct (set_token _ dst x0 (set_amount x0 (t_amount x0 + amt)) E0' eq_refl eq_refl eq_refl eq_refl (or_introl eq_refl)) as (F2 & B2 & S2 & K2).
      split; [eapply frame_trans; eassumption|]. split; [|intros; rewrite S2, S1; cbn [net]; lia].
      intros k. rewrite B2, B1, U6. cbn [net set_amount t_amount]. destruct (src =? k), (dst =? k); lia. }
  split; [exact Q|]. split; [exists x; auto|]. split; [reflexivity|]. split; [lia|]. exists x, x0. repeat split; try assumption. lia.
Qed.
Lemma mint_ok s m dst auth signed amt s' : p_mint_to s m dst auth signed amt = Ok s' ->
  tx_frame s s' [(dst, amt)] [(m, amt)] /\ (exists i, pmint s m = Some i /\ mi_auth i = Some auth) /\ signed = true /\ (exists t, ptoken s dst = Some t /\ t_mint t = m).
Proof.
  intros H. unfold p_mint_to in H. repeat rstep H. injection H as <-. apply andb_prop in E3. destruct E3 as [E3 E5]. apply opt_eqb_true in E3.
  destruct (set_token s dst x (set_amount x (t_amount x + amt)) E eq_refl eq_refl eq_refl eq_refl (or_introl eq_refl)) as (F1 & B1 & S1 & K1).
  assert (E2' : pmint (pset s dst (PToken (set_amount x (t_amount x + amt)))) m = Some x0).
  { apply pmint_data. apply pmint_data in E2. rewrite pget_pset. destruct (Z.eqb_spec dst m) as [->|]; [|assumption]. apply ptoken_data in E. destruct E, E2. congruence. }
  destruct (set_mint _ m x0 (mkMint (mi_auth x0) (mi_supply x0 + amt)) E2' eq_refl) as (F2 & B2 & S2).
  assert (EM : t_mint x = m) by lia.
  split; [|split; [exists x0; auto|split; [assumption|exists x; auto]]].
  split; [eapply frame_trans; eassumption|]. split; intros.
  - rewrite B2, B1. cbn [set_amount t_amount net]. destruct (dst =? k); lia.
  - rewrite S2, S1. cbn [mi_supply net]. destruct (m =? m0); lia.
Qed.
Lemma burn_ok s src m auth signed amt s' : p_burn s src m auth signed amt = Ok s' ->
  tx_frame s s' [(src, - amt)] [(m, - amt)] /\ can_spend s src auth /\ signed = true /\ amt <= bal s src /\ amt <= supply s m.
Proof.
  intros H. unfold p_burn in H. repeat rstep H. injection H as <-. apply spender in E5.
  destruct (used x auth amt (t_amount x - amt)) as (U1 & U2 & U3 & U4 & U5 & U6). set (t' := set_amount _ (t_amount x - amt)) in *.
  destruct (set_token s src x t' E U1 U2 U3 U4 U5) as (F1 & B1 & S1 & K1).
  assert (E0' : pmint (pset s src (PToken t')) m = Some x0).
  { apply pmint_data. apply pmint_data in E0. rewrite pget_pset. destruct (Z.eqb_spec src m) as [->|]; [|assumption]. apply ptoken_data in E. destruct E, E0. congruence. }
  destruct (set_mint _ m x0 (mkMint (mi_auth x0) (mi_supply x0 - amt)) E0' eq_refl) as (F2 & B2 & S2).
  split; [|split; [exists x; auto|split; [reflexivity|split; [unfold bal; rewrite E; lia|unfold supply; rewrite E0; lia]]]].
  split; [eapply frame_trans; eassumption|]. split; intros.
  - rewrite B2, B1, U6. cbn [net]. destruct (src =? k); lia.
  - rewrite S2, S1. cbn [mi_supply net]. destruct (m =? m0); lia.
Qed.

(** ** Baskets *)
Fixpoint in_moves (qs ua vs : list Z) : list (Z * Z) :=
  match qs, ua, vs with q :: qs', u :: ua', v :: vs' => (u, - q) :: (v, q) :: in_moves qs' ua' vs' | _, _, _ => [] end.
Lemma basket_in_ok qs : forall s ua vs who s', basket_in s qs ua vs who = Ok s' ->
  tx_frame s s' (in_moves qs ua vs) [] /\ (length qs = length ua -> length qs = length vs -> Forall (fun q => 0 <= q) qs /\ (forall u, In u ua -> can_spend s u (mk who)) /\ (qs <> [] -> mk_signer who = true)).
Proof.
  induction qs as [|q qs IH]; intros s ua vs who s' H; cbn [basket_in in_moves] in *.
  - injection H as <-. split; [apply tx_nil|]. intros L _. destruct ua; [|discriminate]. repeat split; [constructor|intros u []|congruence].
  - destruct ua as [|u ua], vs as [|v vs]; try (injection H as <-; split; [apply tx_nil|cbn [length]; lia]).
    rstep H. rstep H. apply transfer_ok in E0. destruct E0 as (T1 & C1 & G1 & L1 & _). destruct (IH _ _ _ _ _ H) as (T2 & R).
    split; [change ((u, - q) :: (v, q) :: in_moves qs ua vs) with ([(u, - q); (v, q)] ++ in_moves qs ua vs); eapply tx_app0; eassumption|].
    cbn [length]. intros L1' L2'. destruct (R ltac:(lia) ltac:(lia)) as (R1 & R2 & R3). split; [constructor; [lia|assumption]|]. split; [|auto].
    intros w [->|W]; [assumption|]. apply (frame_spend s x); [apply T1|auto].
Qed.
Definition out_moves (qs ua vs : list Z) : list (Z * Z) := in_moves (map Z.opp qs) ua vs.
Lemma basket_out_ok e qs : forall s ua vs pool nonce auth s', basket_out e s qs ua vs pool nonce auth = Ok s' ->
  tx_frame s s' (out_moves qs ua vs) [] /\ (length qs = length ua -> length qs = length vs -> Forall (fun q => 0 <= q) qs /\ (forall v, In v vs -> can_spend s v (mk auth)) /\ (qs <> [] -> own_signature e pool nonce auth = true)).
Proof.
  induction qs as [|q qs IH]; intros s ua vs pool nonce auth s' H; cbn [basket_out] in *; unfold out_moves in *; cbn [map in_moves] in *.
  - injection H as <-. split; [apply tx_nil|]. intros _ L. destruct vs; [|discriminate]. repeat split; [constructor|intros u []|congruence].
  - destruct ua as [|u ua], vs as [|v vs]; try (injection H as <-; split; [apply tx_nil|cbn [length]; lia]).
    rstep H. rstep H. rstep H. apply transfer_ok in E1. destruct E1 as (T1 & C1 & G1 & L1 & _). destruct (IH _ _ _ _ _ _ _ H) as (T2 & R).
    split.
    { replace ((u, - - q) :: (v, - q) :: in_moves (map Z.opp qs) ua vs) with ([(u, - - q); (v, - q)] ++ in_moves (map Z.opp qs) ua vs) by reflexivity.
      eapply tx_app0; [|eassumption]. destruct T1 as (F & B & M). split; [exact F|]. split; [|exact M]. intros k. rewrite B. cbn [net]. destruct (v =? k), (u =? k); lia. }
    cbn [length]. intros L1' L2'. destruct (R ltac:(lia) ltac:(lia)) as (R1 & R2 & R3). split; [constructor; [lia|assumption]|]. split; [|auto].
    intros w [->|W]; [assumption|]. apply (frame_spend s x0); [apply T1|auto].
Qed.
Lemma mint_each_ok e l : forall s cx nonce s', Forall (fun p => 0 <= snd p) l -> mint_each e s l cx nonce = Ok s' ->
  tx_frame s s' l (map (fun p => (cx_mint cx, snd p)) l).
Proof.
  induction l as [|[k q] l IH]; intros s cx nonce s' F H; cbn [mint_each map] in *; [injection H as <-; apply tx_nil|].
  inversion F as [|? ? F1 F2]; subst. cbn [snd] in *. destruct (Z.ltb_spec 0 q).
  - rstep H. rstep H. apply mint_ok in E0. destruct E0 as (T & _). apply (tx_app s x0 s' [(k, q)] l [(cx_mint cx, q)]); [assumption|eauto].
  - replace q with 0 by lia. apply (tx_app s s s' [(k, 0)] l [(cx_mint cx, 0)]); [|eauto]. split; [apply frame_refl|]. cbn [net]. split; intros.
    + destruct (k =? k0); lia.
    + destruct (cx_mint cx =? m); lia.
Qed.
Lemma fee_each_ok l : forall s pt who s', Forall (fun p => 0 <= snd p) l -> fee_each s pt l who = Ok s' ->
  tx_frame s s' (flat_map (fun p => [(pt, - snd p); p]) l) [].
Proof.
  induction l as [|[k q] l IH]; intros s pt who s' F H; cbn [fee_each flat_map] in *; [injection H as <-; apply tx_nil|].
  inversion F as [|? ? F1 F2]; subst. cbn [snd] in *. destruct (Z.ltb_spec 0 q).
  - rstep H. apply transfer_ok in E. destruct E as (T & _). eapply (tx_app0 _ _ _ [(pt, - q); (k, q)]); [eassumption|eauto].
  - replace q with 0 by lia. eapply (tx_app0 _ _ _ [(pt, - 0); (k, 0)]); [|eauto]. split; [apply frame_refl|]. cbn [net]. split; intros; [|lia].
    destruct (pt =? k0), (k =? k0); lia.
Qed.
