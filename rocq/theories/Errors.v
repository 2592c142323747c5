(** Error codes, [dex/src/error.rs]. *)
From Verif Require Import Base.

(** DexErrorCode, [error.rs:34-124] *)
Inductive dex_code :=
| CInvalidMarketFlags | CInvalidAskFlags | CInvalidBidFlags | CInvalidQueueLength | COwnerAccountNotProvided | CConsumeEventsQueueFailure 
| CWrongCoinVault | CWrongPcVault | CWrongCoinMint | CWrongPcMint | CCoinVaultProgramId | CPcVaultProgramId | CCoinMintProgramId | CPcMintProgramId 
| CWrongCoinMintSize | CWrongPcMintSize | CWrongCoinVaultSize | CWrongPcVaultSize | CUninitializedVault | CUninitializedMint | CCoinMintUninitialized 
| CPcMintUninitialized | CWrongMint | CWrongVaultOwner | CVaultHasDelegate | CAlreadyInitialized | CWrongAccountDataAlignment 
| CWrongAccountDataPaddingLength | CWrongAccountHeadPadding | CWrongAccountTailPadding | CRequestQueueEmpty | CEventQueueTooSmall | CSlabTooSmall 
| CBadVaultSignerNonce | CInsufficientFunds | CSplAccountProgramId | CSplAccountLen | CWrongFeeDiscountAccountOwner | CWrongFeeDiscountMint 
| CCoinPayerProgramId | CPcPayerProgramId | CClientIdNotFound | CTooManyOpenOrders | CFakeErrorSoWeDontChangeNumbers | CBorrowError 
| CWrongOrdersAccount | CWrongBidsAccount | CWrongAsksAccount | CWrongRequestQueueAccount | CWrongEventQueueAccount | CRequestQueueFull 
| CEventQueueFull | CMarketIsDisabled | CWrongSigner | CTransferFailed | CClientOrderIdIsZero | CWrongRentSysvarAccount | CRentNotProvided 
| COrdersNotRentExempt | COrderNotFound | COrderNotYours | CWouldSelfTrade | CInvalidOpenOrdersAuthority | COrderMaxTimestampExceeded 
| CMinAmountNotMet | CUnknown | CAssertionError .
(** The variants as declared, with the discriminants given there, [error.rs:37-123]. *)
Definition declared : list (dex_code * option Z) :=
  [(CInvalidMarketFlags, Some 0); (CInvalidAskFlags, None); (CInvalidBidFlags, None); (CInvalidQueueLength, None); (COwnerAccountNotProvided, None); 
   (CConsumeEventsQueueFailure, None); (CWrongCoinVault, None); (CWrongPcVault, None); (CWrongCoinMint, None); (CWrongPcMint, None); 
   (CCoinVaultProgramId, Some 10); (CPcVaultProgramId, None); (CCoinMintProgramId, None); (CPcMintProgramId, None); (CWrongCoinMintSize, None); 
   (CWrongPcMintSize, None); (CWrongCoinVaultSize, None); (CWrongPcVaultSize, None); (CUninitializedVault, None); (CUninitializedMint, None); 
   (CCoinMintUninitialized, Some 20); (CPcMintUninitialized, None); (CWrongMint, None); (CWrongVaultOwner, None); (CVaultHasDelegate, None); 
   (CAlreadyInitialized, None); (CWrongAccountDataAlignment, None); (CWrongAccountDataPaddingLength, None); (CWrongAccountHeadPadding, None); 
   (CWrongAccountTailPadding, None); (CRequestQueueEmpty, Some 30); (CEventQueueTooSmall, None); (CSlabTooSmall, None); (CBadVaultSignerNonce, None); 
   (CInsufficientFunds, None); (CSplAccountProgramId, None); (CSplAccountLen, None); (CWrongFeeDiscountAccountOwner, None); (CWrongFeeDiscountMint, None); 
   (CCoinPayerProgramId, None); (CPcPayerProgramId, Some 40); (CClientIdNotFound, None); (CTooManyOpenOrders, None); 
   (CFakeErrorSoWeDontChangeNumbers, None); (CBorrowError, None); (CWrongOrdersAccount, None); (CWrongBidsAccount, None); (CWrongAsksAccount, None); 
   (CWrongRequestQueueAccount, None); (CWrongEventQueueAccount, None); (CRequestQueueFull, Some 50); (CEventQueueFull, None); (CMarketIsDisabled, None); 
   (CWrongSigner, None); (CTransferFailed, None); (CClientOrderIdIsZero, None); (CWrongRentSysvarAccount, None); (CRentNotProvided, None); 
   (COrdersNotRentExempt, None); (COrderNotFound, None); (COrderNotYours, Some 60); (CWouldSelfTrade, None); (CInvalidOpenOrdersAuthority, None); 
   (COrderMaxTimestampExceeded, None); (CMinAmountNotMet, None); (CUnknown, Some 1000); (CAssertionError, None)].
(** Rust numbers a variant without a discriminant one above the variant before it. *)
Fixpoint numbered (next : Z) (l : list (dex_code * option Z)) : list (dex_code * Z) :=
  match l with
  | [] => []
  | (c, d) :: r => let n := match d with Some x => x | None => next end in (c, n) :: numbered (n + 1) r
  end.
Definition code_eq (a b : dex_code) : {a = b} + {a <> b}. Proof. decide equality. Defined.
(** [u32::from(DexErrorCode)] (IntoPrimitive), [error.rs:34-35] *)
Definition to_u32 (c : dex_code) : Z := match find (fun p => if code_eq (fst p) c then true else false) (numbered 0 declared) with Some p => snd p | None => 0 end.
(** [DexErrorCode::from(u32)] (FromPrimitive; the default is AssertionError), [error.rs:34, 122-123] *)
Definition of_u32 (z : Z) : dex_code := match find (fun p => snd p =? z) (numbered 0 declared) with Some p => fst p | None => CAssertionError end.

(** SourceFileId, [error.rs:126-135], and AssertionError, [error.rs:7-17]: [line] is a u16. *)
Inductive source_file := FState | FMatching | FCritbit.
Definition file_id (f : source_file) : Z := match f with FState => 1 | FMatching => 2 | FCritbit => 3 end.
Definition assertion_u32 (line : Z) (f : source_file) : Z := line + Z.shiftl (file_id f) 24.

(** DexError and its conversion to ProgramError, [error.rs:19-32, 189-196].  Of ProgramError only [Custom] matters: the others carry no number. *)
Inductive program_error := Custom (z : Z) | Builtin (z : Z).
Inductive dex_error := ProgramError (p : program_error) | ErrorCode (c : dex_code).
Definition of_assertion (line : Z) (f : source_file) : dex_error := ProgramError (Custom (assertion_u32 line f)).
Definition to_program_error (e : dex_error) : program_error := match e with ProgramError p => p | ErrorCode c => Custom (to_u32 c) end.

(** The codes behind the model's errors.  [EAssert] stands for the failed checks with a line number, [EOther],
    [ENotSigner], [EInvalidArgument] and [ETooManyOrders] for errors of other kinds. *)
Definition err_code (e : err) : option dex_code :=
  match e with
  | EInvalidMarketFlags => Some CInvalidMarketFlags | EWrongOrdersAccount => Some CWrongOrdersAccount | EOrdersNotRentExempt => Some COrdersNotRentExempt
  | EOrderNotFound => Some COrderNotFound | EOrderNotYours => Some COrderNotYours | EClientIdNotFound => Some CClientIdNotFound
  | EEventQueueFull => Some CEventQueueFull | EWouldSelfTrade => Some CWouldSelfTrade | ETooManyOpenOrders => Some CTooManyOpenOrders
  | EInsufficientFunds => Some CInsufficientFunds | ETransferFailed => Some CTransferFailed | EMinAmountNotMet => Some CMinAmountNotMet
  | EMaxTimestamp => Some COrderMaxTimestampExceeded | EInvalidOpenOrdersAuthority => Some CInvalidOpenOrdersAuthority
  | ERentNotProvided => Some CRentNotProvided | EOwnerNotProvided => Some COwnerAccountNotProvided
  | EWrongCoinVault => Some CWrongCoinVault | EWrongPcVault => Some CWrongPcVault | EWrongCoinMint => Some CWrongCoinMint | EWrongPcMint => Some CWrongPcMint
  | EWrongBids => Some CWrongBidsAccount | EWrongAsks => Some CWrongAsksAccount | EWrongEventQ => Some CWrongEventQueueAccount | EWrongReqQ => Some CWrongRequestQueueAccount
  | EMarketIsDisabled => Some CMarketIsDisabled | EConsumeFailure => Some CConsumeEventsQueueFailure
  | ESlabTooSmall => Some CSlabTooSmall | EEventQueueTooSmall => Some CEventQueueTooSmall | EReqQueueEmpty => Some CRequestQueueEmpty
  | EAssert | ETooManyOrders | EInvalidArgument | ENotSigner | EOther => None
  end.
