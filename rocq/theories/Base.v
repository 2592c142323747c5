(** Shared vocabulary of the model: results, wrapping arithmetic, indexing. *)
Require Export ZArith Bool List Lia.
Require Export ZifyBool.
Export ListNotations.
Open Scope Z_scope.

(** Errors.  [dex/src/error.rs:36-124] (only the codes the model can return;
    [EAssert] stands for every [check_assert!]-style custom error). *)
Inductive err :=
| EAssert
| EInvalidMarketFlags | EWrongOrdersAccount | EOrdersNotRentExempt
| EOrderNotFound | EOrderNotYours | EClientIdNotFound | EEventQueueFull
| EWouldSelfTrade | ETooManyOpenOrders | EInsufficientFunds | ETransferFailed
| EMinAmountNotMet | EMaxTimestamp | EInvalidOpenOrdersAuthority
| ERentNotProvided | EOwnerNotProvided | EWrongCoinVault | EWrongPcVault
| EWrongCoinMint | EWrongPcMint | EWrongBids | EWrongAsks | EWrongEventQ | EWrongReqQ
| EMarketIsDisabled | EConsumeFailure | ETooManyOrders | EInvalidArgument | ENotSigner
| ESlabTooSmall | EEventQueueTooSmall | EReqQueueEmpty | EOther.

(** [DexResult] plus an explicit abort ([panic!], failed [assert!], [unwrap] on
    nothing, division by zero, ...). *)
Inductive res (A : Type) :=
| Ok (a : A)
| Err (e : err)
| Panic.
Arguments Ok {A} a.
Arguments Err {A} e.
Arguments Panic {A}.

Definition rbind {A B} (x : res A) (f : A -> res B) : res B :=
  match x with Ok a => f a | Err e => Err e | Panic => Panic end.
Notation "x <- a ;; b" := (rbind a (fun x => b))
  (at level 61, a at next level, right associativity).
Notation "' p <- a ;; b" := (rbind a (fun p => b))
  (at level 61, p pattern, a at next level, right associativity).

Definition check (b : bool) (e : err) : res unit := if b then Ok tt else Err e.
Definition passert (b : bool) : res unit := if b then Ok tt else Panic.
Definition unwrap {A} (o : option A) : res A :=
  match o with Some a => Ok a | None => Panic end.
Definition ok_or {A} (o : option A) (e : err) : res A :=
  match o with Some a => Ok a | None => Err e end.

Notation B64 := 18446744073709551616.
Notation B128 := 340282366920938463463374607431768211456.

(** Release-mode (wrapping) arithmetic. *)
Definition w64 (x : Z) : Z := x mod B64.
Definition w128 (x : Z) : Z := x mod B128.
Definition wadd (a b : Z) : Z := w64 (a + b).
Definition wsub (a b : Z) : Z := w64 (a - b).
Definition wmul (a b : Z) : Z := w64 (a * b).
(** [checked_add(..).unwrap()] etc. on u64. *)
Definition cadd (a b : Z) : res Z := if a + b <? B64 then Ok (a + b) else Panic.
Definition csub (a b : Z) : res Z := if b <=? a then Ok (a - b) else Panic.
Definition cmul (a b : Z) : res Z := if a * b <? B64 then Ok (a * b) else Panic.

Definition u64 (x : Z) : Prop := 0 <= x < B64.
Definition u128 (x : Z) : Prop := 0 <= x < B128.

(** Indexing a list with a machine integer; out of range gives [None]. *)
Definition znth {A} (l : list A) (i : Z) : option A :=
  if i <? 0 then None else nth_error l (Z.to_nat i).

Fixpoint upd_nth {A} (l : list A) (n : nat) (v : A) : list A :=
  match l, n with
  | [], _ => []
  | _ :: r, O => v :: r
  | x :: r, S m => x :: upd_nth r m v
  end.
Definition zupd {A} (l : list A) (i : Z) (v : A) : list A :=
  if i <? 0 then l else upd_nth l (Z.to_nat i) v.

Definition zlen {A} (l : list A) : Z := Z.of_nat (length l).

(** Order side. [dex/src/matching.rs:38-47] *)
Inductive side := Bid | Ask.
Definition side_eqb (a b : side) : bool :=
  match a, b with Bid, Bid | Ask, Ask => true | _, _ => false end.
(** [dex/src/matching.rs:49-59] *)
Inductive order_type := Limit | ImmediateOrCancel | PostOnly.
(** [dex/src/instruction.rs:62-72] *)
Inductive self_trade := DecrementTake | CancelProvide | AbortTransaction.
