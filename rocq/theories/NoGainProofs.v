(** Nobody gains by trading back and forth against standing orders (C77). *)
From Verif Require Import Base BaseProofs Fees ListSum Queue QueueProofs Codec CodecProofs Critbit CritbitProofs CritbitSlab Market Matching MatchSteps MatchSpec MatchFacts MatchReport MatchRefine Ledger LedgerSums LedgerSteps Slots
  Core CoreInv Instr InstrProofs Store Process StoreProofs World WorldInv WorldLoad WorldRun WorldMain WorldSpec WorldFacts
  WorldRange WorldCancel WorldPay WorldTrade WorldCrank WorldSupply LifeSpec LifeProofs LifeSteps LifeMain AbsentSpec AbsentProofs StatementSpec StatementProofs IncomeSpec IncomeProofs NoGainSpec.

(** ** What a trade of a standing order is worth to it *)
Section Worth.
Variables (m : market) (p : Z).
Hypothesis (CL : 0 < m_coin_lot m) (PL : 0 < m_pc_lot m).
Definition worth (v : event_view) : Z := m_pc_lot m * p * coin_trade v + m_coin_lot m * pc_trade v.
Lemma worth_trade sd l n t : 0 <= n -> match sd with Bid => l_price l <= p | Ask => p <= l_price l end -> 0 <= worth (traded m sd l n t).
Proof.
  intros N F. unfold worth, traded. destruct sd; cbn [coin_trade pc_trade]; unfold part, fetch.
  - replace (_ + _) with (m_pc_lot m * m_coin_lot m * n * (p - l_price l)) by ring. repeat apply Z.mul_nonneg_nonneg; lia.
  - replace (_ + _) with (m_pc_lot m * m_coin_lot m * n * (l_price l - p)) by ring. repeat apply Z.mul_nonneg_nonneg; lia.
Qed.
Lemma worth_out sd l g a b : worth (released sd l g a b) = 0.
Proof. unfold worth, released. cbn [coin_trade pc_trade]. lia. Qed.
Lemma worth_story sd l q r q' : match sd with Bid => l_price l <= p | Ask => p <= l_price l end -> story m sd l q r q' -> forall v, In v r -> 0 <= worth v.
Proof.
  intros F. induction 1 as [q|q n t r q1 N S IH|q n r q1 N S IH|q t N|q g N]; intros v I; cbn [In] in I.
  - contradiction.
  - destruct I as [<-|I]; [apply worth_trade; [lia|exact F]|auto].
  - destruct I as [<-|I]; [rewrite worth_out; lia|auto].
  - destruct I as [<-|[<-|[]]]; [apply worth_trade; [lia|exact F]|rewrite worth_out; lia].
  - destruct I as [<-|[]]. rewrite worth_out. lia.
Qed.
Lemma worth_sum E : zsum worth E = m_pc_lot m * p * zsum coin_trade E + m_coin_lot m * zsum pc_trade E.
Proof. induction E as [|v E IH]; cbn [zsum]; [lia|]. rewrite IH. unfold worth. ring. Qed.
End Worth.
Definition of_those (xs : list Z) (E : list event_view) : list event_view := filter (fun v => existsb (Z.eqb (ev_owner v)) xs) E.
Lemma split_events f xs E : zsum f E = zsum f (of_those xs E) + zsum f (of_others xs E).
Proof. unfold of_those, of_others. induction E as [|v E IH]; [reflexivity|]. cbn [filter zsum]. destruct (existsb _ xs); cbn [negb zsum]; lia. Qed.
Lemma of_those_In xs E v : In v (of_those xs E) -> In v E /\ In (ev_owner v) xs.
Proof. unfold of_those. rewrite filter_In. intros (I & X). split; [exact I|]. apply existsb_exists in X. destruct X as (y & Y & Q). assert (ev_owner v = y) by lia. congruence. Qed.
(** A fair price exists. *)
Lemma highest (ls : list leaf) : exists p, 1 <= p /\ (forall l : leaf, In l ls -> l_price l <= p) /\ (p = 1 \/ exists l : leaf, In l ls /\ l_price l = p).
Proof.
  induction ls as [|a ls (p & P1 & P2 & P3)]; [exists 1; split; [lia|]; split; [intros y []|auto]|]. destruct (Z_le_gt_dec (l_price a) p) as [LE|GT].
  - exists p. split; [exact P1|]. split; [intros y [<-|I]; auto|]. destruct P3 as [P3|(l0 & I & P3)]; [auto|right; exists l0; split; [right; exact I|exact P3]].
  - exists (l_price a). split; [lia|]. split; [intros l0 [<-|I]; [lia|specialize (P2 _ I); lia]|]. right. exists a. split; [left; reflexivity|reflexivity].
Qed.

Section NoGain.
Variable e : env.
Hypothesis EO : env_ok e.
Notation D := (dexd e).
Lemma dealt_books k away s E T s' : dealt e k away s E T s' -> books e k s E T s'.
Proof. induction 1; [apply books_now|eapply books_tx; eassumption|eapply books_env; eassumption]. Qed.
Lemma dealt_absent k away s E T s' w : dealt e k away s E T s' -> away w -> absent e k w s E s'.
Proof.
  intros DT AW. induction DT as [|E T s1 c b ms i s2 E1 DT IH G SZ HB LG NS U PO H Q|E T s1 s2 DT IH R]; [apply absent_now| |eapply absent_env; eassumption].
  rewrite <- (did e b i c s1 s2 ms U H) in *. apply absent_tx; auto.
Qed.
Section Deal.
Variables (k : Z) (away : Z -> Prop) (s : store) (E : list event_view) (T : list dealing) (s' : store) (m : market) (A : astate) (L : list (Z * open_orders)) (m' : market) (A' : astate) (L' : list (Z * open_orders)) (xs : list Z).
Hypothesis (HI : history e s) (DT : dealt e k away s E T s') (SN : seen e s k m A L) (P : usable m) (NV : m_coin_vault m <> m_pc_vault m) (SN' : seen e s' k m' A' L') (ST : standing away L xs).
Lemma those_fair p v : fair A xs p -> In v (of_those xs E) -> 0 <= worth m p v.
Proof.
  intros [F1 F2] I. apply of_those_In in I. destruct I as [I O]. destruct (ST _ O) as (oo & IX & AW). pose proof (dealt_absent k away s E T s' _ DT AW) as AB.
  destruct (absent_events e EO k _ s E s' AB HI m A L _ oo SN P IX eq_refl v I eq_refl) as (sd & l & IL & OL & AV).
  destruct (life_of_an_order e EO k s E s' m A L m' A' L' sd l HI (absent_stretch e k _ s E s' AB) SN P SN' IL) as (q' & S0 & _).
  pose proof P as (P1 & P2). eapply (worth_story m p ltac:(lia) ltac:(lia) sd l); [|exact S0|apply filter_In; auto]. rewrite <- OL in O. destruct sd; [apply F1|apply F2]; assumption.
Qed.
Theorem no_gain p : fair A xs p -> m_pc_lot m * p * coin_gain xs E T + m_coin_lot m * pc_gain xs E T <= - (m_coin_lot m * income E T).
Proof.
  intros F. destruct (books_balance e EO k s E T s' m A L m' A' L' HI (dealt_books _ _ _ _ _ _ DT) SN P NV SN') as [B1 _].
  assert (N : 0 <= zsum (worth m p) (of_those xs E)) by (apply zsum_nonneg; intros v I; apply those_fair; assumption). rewrite worth_sum in N.
  unfold coin_gain, pc_gain, income. rewrite B1, (split_events coin_trade xs E), (split_events pc_trade xs E). lia.
Qed.
Lemma fair_price : exists p, 0 < p /\ fair A xs p.
Proof.
  destruct (highest (a_bids A)) as (p & P1 & P2 & P3). exists p. split; [lia|]. split; [intros l I _; auto|]. intros l I _. pose proof (reachable_inv e EO s HI) as WI.
  destruct P3 as [->|(b & IB & <-)]; [destruct (resting_pos e s k m A L WI SN P Ask l I); lia|].
  pose proof (never_crossed e EO s k m A L HI SN P b l IB I). lia.
Qed.
(** Whoever ends with no less coin has paid for it, and conversely. *)
Theorem nothing_for_nothing : 0 <= income E T /\ (0 <= coin_gain xs E T -> pc_gain xs E T <= - income E T) /\ (0 <= pc_gain xs E T -> coin_gain xs E T <= 0).
Proof.
  pose proof (never_at_a_loss e EO k s E T s' m A L HI (dealt_books _ _ _ _ _ _ DT) SN P NV) as I0. destruct fair_price as (p & PP & F). pose proof (no_gain p F) as N. destruct P as (P1 & P2 & _). split; [exact I0|]. split; intros G.
  - assert (0 <= m_pc_lot m * p * coin_gain xs E T) by (repeat apply Z.mul_nonneg_nonneg; lia). apply (Zmult_le_reg_r _ _ (m_coin_lot m)); lia.
  - assert (0 <= m_coin_lot m * pc_gain xs E T) by (apply Z.mul_nonneg_nonneg; lia). assert (0 <= m_coin_lot m * income E T) by (apply Z.mul_nonneg_nonneg; lia). assert (0 < m_pc_lot m * p) by (apply Z.mul_pos_pos; lia).
    destruct (Z_le_gt_dec (coin_gain xs E T) 0) as [|C]; [assumption|]. exfalso. assert (0 < m_pc_lot m * p * coin_gain xs E T) by (apply Z.mul_pos_pos; lia). lia.
Qed.
End Deal.
End NoGain.
