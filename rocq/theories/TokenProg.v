(** * TokenProg.v — SPL Token and Token-2022 (external programs).

    token-wrap calls these programs by CPI and third parties call them directly.  Both
    programs are modelled by one function parameterised by the program id: on accounts
    without extensions they behave alike, and SPL Token refuses accounts with extensions.
    SIMPLIFICATION: the order of some error checks differs from the real programs. *)
From Verif Require Import Base Codec State Pda.

(** ** Writing accounts: the runtime lets a program change data only of accounts it owns
    and that are writable in the instruction. *)
Definition set_data (prog : pubkey) (ms : list info) (k : pubkey) (d : data) (l : ledger) : res ledger :=
  guard (is_wr ms k) (ERt ReadonlyDataModified) ;;
  guard (pk_eqb (a_owner (l k)) prog) (ERt ExternalAccountDataModified) ;;
  Ok (upd l k (with_data d (l k))).

(** Debit requires ownership; credit only requires writability. *)
Definition move_lamports (prog : pubkey) (ms : list info) (from to : pubkey) (n : N) (l : ledger) : res ledger :=
  guard (is_wr ms from && is_wr ms to) (ERt ReadonlyLamportChange) ;;
  guard (pk_eqb (a_owner (l from)) prog) (ERt ExternalAccountLamportSpend) ;;
  guard (n <=? a_lamports (l from)) (ERt InsufficientLamports) ;;
  let l1 := upd l from (with_lamports (a_lamports (l from) - n) (l from)) in
  Ok (upd l1 to (with_lamports (a_lamports (l1 to) + n) (l1 to))).

(** ** Unpacking *)
Definition all_zero (l : list N) : bool := forallb (fun b => b =? 0) l.

(** PodStateWithExtensions::<PodAccount>::unpack (external). *)
Definition pod_unpack_tok (d : data) : res tokacc :=
  match d with
  | DTok t => if acct_state_eqb (t_state t) Uninitialized then Err EUninitializedAccount else Ok t
  | DRaw l => if all_zero l && (tok_base_len <=? N.of_nat (length l)) then Err EUninitializedAccount
              else Err EInvalidAccountData
  | _ => Err EInvalidAccountData
  end.
(** PodStateWithExtensions::<PodMint>::unpack (external). *)
Definition pod_unpack_mint (d : data) : res mint :=
  match d with
  | DMint m => if m_init m then Ok m else Err EUninitializedAccount
  | DRaw l => if all_zero l && (mint_base_len <=? N.of_nat (length l)) then Err EUninitializedAccount
              else Err EInvalidAccountData
  | _ => Err EInvalidAccountData
  end.
(** SPL Token only accepts accounts of exactly the base length. *)
Definition is_nil {A} (l : list A) : bool := match l with [] => true | _ => false end.
Definition unpack_tok (prog : pubkey) (d : data) : res tokacc :=
  t <- pod_unpack_tok d ;;
  guard (negb (pk_eqb prog spl_token_id) || is_nil (t_exts t)) EInvalidAccountData ;; Ok t.
Definition unpack_mint (prog : pubkey) (d : data) : res mint :=
  m <- pod_unpack_mint d ;;
  guard (negb (pk_eqb prog spl_token_id) || is_nil (m_exts m)) EInvalidAccountData ;; Ok m.
(** PodStateWithExtensionsMut::<PodMint>::unpack_uninitialized. *)
Definition unpack_uninit_mint (d : data) : res mint :=
  match d with
  | DRaw l =>
      guard (all_zero l && (mint_base_len <=? N.of_nat (length l))) EInvalidAccountData ;;
      Ok (mkMint None 0 0 false None [] (N.of_nat (length l)))
  | DMint m => guard (negb (m_init m)) (ETok AlreadyInUse) ;; Ok m
  | _ => Err EInvalidAccountData
  end.

(** ** Transfer fees: TransferFeeConfig::calculate_epoch_fee (external).
    [None] stands for arithmetic overflow. *)
Definition ceil_div (a b : N) : N := (a + b - 1) / b.
Definition calc_fee (f : transfer_fee) (amount : N) : option N :=
  if (tf_bps f =? 0) || (amount =? 0) then Some 0
  else
    let raw := ceil_div (amount * tf_bps f) 10000 in
    if raw <? two64 then Some (N.min raw (tf_max f)) else None.
Definition epoch_fee (c : fee_config) (epoch : N) : transfer_fee :=
  if tf_epoch (fc_newer c) <=? epoch then fc_newer c else fc_older c.
Definition calculate_epoch_fee (c : fee_config) (epoch amount : N) : option N :=
  calc_fee (epoch_fee c epoch) amount.

(** ** Authority validation: Processor::validate_owner (external). *)
Definition ms_count (signers : list pubkey) (m : multisig) : N :=
  N.of_nat (length (filter (fun k => pk_mem k signers) (ms_signers m))).
Definition validate_owner (prog : pubkey) (l : ledger) (ms : list info) (expected auth : pubkey)
    (signers : list pubkey) : res unit :=
  guard (pk_eqb expected auth) (ETok OwnerMismatch) ;;
  match a_data (l auth) with
  | DMultisig m =>
      if pk_eqb (a_owner (l auth)) prog then
        guard (forallb (fun k => negb (pk_mem k (ms_signers m)) || is_sig ms k) signers) EMissingRequiredSignature ;;
        guard (ms_m m <=? ms_count signers m) EMissingRequiredSignature
      else guard (is_sig ms auth) EMissingRequiredSignature
  | _ => guard (is_sig ms auth) EMissingRequiredSignature
  end.

(** ** Record updates *)
Definition set_amount (n : N) (t : tokacc) : tokacc :=
  mkTok (t_mint t) (t_owner t) n (t_delegate t) (t_delegated t) (t_state t) (t_native t) (t_close t) (t_exts t).
Definition set_delegate (d : option pubkey) (n : N) (t : tokacc) : tokacc :=
  mkTok (t_mint t) (t_owner t) (t_amount t) d n (t_state t) (t_native t) (t_close t) (t_exts t).
Definition set_state (s : acct_state) (t : tokacc) : tokacc :=
  mkTok (t_mint t) (t_owner t) (t_amount t) (t_delegate t) (t_delegated t) s (t_native t) (t_close t) (t_exts t).
Definition set_texts (x : list acct_ext) (t : tokacc) : tokacc :=
  mkTok (t_mint t) (t_owner t) (t_amount t) (t_delegate t) (t_delegated t) (t_state t) (t_native t) (t_close t) x.
Definition set_close (c : option pubkey) (t : tokacc) : tokacc :=
  mkTok (t_mint t) (t_owner t) (t_amount t) (t_delegate t) (t_delegated t) (t_state t) (t_native t) c (t_exts t).
Definition set_towner (o : pubkey) (t : tokacc) : tokacc :=
  mkTok (t_mint t) o (t_amount t) (t_delegate t) (t_delegated t) (t_state t) (t_native t) (t_close t) (t_exts t).
Definition set_supply (n : N) (m : mint) : mint :=
  mkMint (m_auth m) n (m_decimals m) (m_init m) (m_freeze m) (m_exts m) (m_len m).
Definition set_mexts (x : list mint_ext) (len : N) (m : mint) : mint :=
  mkMint (m_auth m) (m_supply m) (m_decimals m) (m_init m) (m_freeze m) x len.
Definition set_mauth (a : option pubkey) (m : mint) : mint :=
  mkMint a (m_supply m) (m_decimals m) (m_init m) (m_freeze m) (m_exts m) (m_len m).
Definition set_mfreeze (a : option pubkey) (m : mint) : mint :=
  mkMint (m_auth m) (m_supply m) (m_decimals m) (m_init m) a (m_exts m) (m_len m).

(** Adding to the withheld amount of the TransferFeeAmount extension ([None]: extension missing). *)
Fixpoint add_withheld (fee : N) (x : list acct_ext) : option (list acct_ext) :=
  match x with
  | [] => None
  | AxTransferFeeAmount w :: r => if w + fee <? two64 then Some (AxTransferFeeAmount (w + fee) :: r) else None
  | e :: r => match add_withheld fee r with Some r' => Some (e :: r') | None => None end
  end.
Definition withheld_of (x : list acct_ext) : N :=
  fold_right (fun e acc => match e with AxTransferFeeAmount w => w + acc | _ => acc end) 0 x.
Definition confidential_of (x : list acct_ext) : N :=
  fold_right (fun e acc => match e with AxConfidentialTransferAccount n => n + acc | _ => acc end) 0 x.
Definition clear_withheld (x : list acct_ext) : list acct_ext :=
  map (fun e => match e with AxTransferFeeAmount _ => AxTransferFeeAmount 0 | e => e end) x.

(** ** Foreign code.  The runtime confines whatever a foreign program does during a call to
    the accounts passed as writable, and rejects a call that changes their lamport total
    (UnbalancedInstruction). *)
Definition keys_of (ms : list info) : list pubkey := nodup pk_dec (map i_key ms).
Definition sum_lamports (ks : list pubkey) (l : ledger) : N :=
  fold_right (fun k acc => a_lamports (l k) + acc) 0 ks.
Definition confine (ms : list info) (may : pubkey -> bool) (l l' : ledger) : ledger :=
  fun k => if is_wr ms k && may k then l' k else l k.
Definition balanced (ms : list info) (l l' : ledger) : bool :=
  sum_lamports (keys_of ms) l' =? sum_lamports (keys_of ms) l.

(** ** Transfer hook: an arbitrary program ([e_hook]).  Re-entrancy rules keep it from changing
    Token-2022 or token-wrap accounts (both programs are already on the call stack), and it can
    never sign for a token-wrap PDA.  SIMPLIFICATION: it does not credit lamports to those
    either. *)
Definition hook_may (l : ledger) (k : pubkey) : bool :=
  negb (pk_eqb (a_owner (l k)) t22_id || pk_eqb (a_owner (l k)) tw_id || is_tw_pda k).
Definition run_hook (e : env) (m : mint) (ms : list info) (amount : N) (l : ledger) : res ledger :=
  match ext_hook m with
  | None => Ok l
  | Some p =>
      l' <- e_hook e p ms amount l ;;
      let l2 := confine ms (hook_may l) l l' in
      guard (balanced ms l l2) (ERt UnbalancedInstruction) ;; Ok l2
  end.

(** Fee charged on a transfer of [amount] of mint [m]. *)
Definition transfer_fee_of (e : env) (m : mint) (amount : N) : res N :=
  match ext_fee m with
  | None => Ok 0
  | Some c => of_option (calculate_epoch_fee c (e_epoch e) amount) (ETok Overflow)
  end.

(** Who authorises taking [amount] out of token account [t]?  Returns the account with the
    delegate allowance reduced.  (Permanent delegate, delegate, owner — in this order.) *)
Definition authorize_debit (prog : pubkey) (l : ledger) (ms : list info) (cpi : bool) (t : tokacc) (m : mint)
    (auth : pubkey) (signers : list pubkey) (amount : N) (self : bool) : res tokacc :=
  if opk_eqb (ext_permanent_delegate m) (Some auth) then
    validate_owner prog l ms auth auth signers ;; Ok t
  else if opk_eqb (t_delegate t) (Some auth) then
    validate_owner prog l ms auth auth signers ;;
    guard (amount <=? t_delegated t) (ETok InsufficientFunds) ;;
    if self then Ok t
    else
      let d := t_delegated t - amount in
      Ok (set_delegate (if d =? 0 then None else t_delegate t) d t)
  else
    validate_owner prog l ms (t_owner t) auth signers ;;
    guard (negb (cpi && cpi_guard_locked t)) (ETok CpiGuardBlocked) ;;
    Ok t.

(** Moving lamports of native (wrapped SOL) accounts along with the token amount. *)
Definition move_native (prog : pubkey) (ms : list info) (t : tokacc) (src dst : pubkey) (n : N) (l : ledger) : res ledger :=
  match t_native t with
  | None => Ok l
  | Some _ => move_lamports prog ms src dst n l
  end.

(** Processor::process_transfer with a mint account: TransferChecked ([expfee = None]) and
    TransferCheckedWithFee ([expfee = Some fee]). *)
Definition tok_transfer_checked (e : env) (prog : pubkey) (cpi : bool) (ms : list info)
    (src mnt dst auth : pubkey) (signers : list pubkey) (amount dec : N) (expfee : option N)
    (l : ledger) : res ledger :=
  s <- unpack_tok prog (a_data (l src)) ;;
  guard (negb (acct_state_eqb (t_state s) Frozen)) (ETok AccountFrozen) ;;
  guard (amount <=? t_amount s) (ETok InsufficientFunds) ;;
  guard (negb (has_acct_ext XtNonTransferableAccount s)) (ETok NonTransferable) ;;
  guard (pk_eqb (t_mint s) mnt) (ETok MintMismatch) ;;
  m <- unpack_mint prog (a_data (l mnt)) ;;
  guard (dec =? m_decimals m) (ETok MintDecimalsMismatch) ;;
  fee <- transfer_fee_of e m amount ;;
  guard (negb (ext_paused m)) (ETok MintPaused) ;;
  guard (match expfee with None => true | Some f => f =? fee end) (ETok FeeMismatch) ;;
  let self := pk_eqb src dst in
  s1 <- authorize_debit prog l ms cpi s m auth signers amount self ;;
  guard (pk_eqb (a_owner (l src)) prog && pk_eqb (a_owner (l dst)) prog) EIncorrectProgramId ;;
  if self then
    guard (negb (memo_required s) || e_memo e) (ETok NoMemo) ;; Ok l
  else
    d <- unpack_tok prog (a_data (l dst)) ;;
    guard (negb (acct_state_eqb (t_state d) Frozen)) (ETok AccountFrozen) ;;
    guard (pk_eqb (t_mint d) mnt) (ETok MintMismatch) ;;
    guard (negb (memo_required d) || e_memo e) (ETok NoMemo) ;;
    guard (fee <=? amount) (ETok Overflow) ;;
    let credited := amount - fee in
    guard (u64_ok (t_amount d + credited)) (ETok Overflow) ;;
    dx <- (if fee =? 0 then Ok (t_exts d)
           else of_option (add_withheld fee (t_exts d)) EInvalidAccountData) ;;
    l1 <- set_data prog ms src (DTok (set_amount (t_amount s1 - amount) s1)) l ;;
    l2 <- set_data prog ms dst (DTok (set_texts dx (set_amount (t_amount d + credited) d))) l1 ;;
    l3 <- move_native prog ms s src dst amount l2 ;;
    run_hook e m ms amount l3.

(** Plain Transfer (no mint account).  Token-2022 refuses it for accounts of mints that need
    the mint (fees, hooks, pausable, non-transferable). *)
Definition tok_transfer_plain (e : env) (prog : pubkey) (cpi : bool) (ms : list info)
    (src dst auth : pubkey) (signers : list pubkey) (amount : N) (l : ledger) : res ledger :=
  s <- unpack_tok prog (a_data (l src)) ;;
  guard (negb (acct_state_eqb (t_state s) Frozen)) (ETok AccountFrozen) ;;
  guard (amount <=? t_amount s) (ETok InsufficientFunds) ;;
  guard (negb (has_acct_ext XtNonTransferableAccount s || has_acct_ext XtTransferFeeAmount s
               || has_acct_ext XtTransferHookAccount s || has_acct_ext XtPausableAccount s)) (ETok MintMismatch) ;;
  let self := pk_eqb src dst in
  s1 <- authorize_debit prog l ms cpi s (mkMint None 0 0 true None [] 82) auth signers amount self ;;
  guard (pk_eqb (a_owner (l src)) prog && pk_eqb (a_owner (l dst)) prog) EIncorrectProgramId ;;
  if self then Ok l
  else
    d <- unpack_tok prog (a_data (l dst)) ;;
    guard (negb (acct_state_eqb (t_state d) Frozen)) (ETok AccountFrozen) ;;
    guard (pk_eqb (t_mint s) (t_mint d)) (ETok MintMismatch) ;;
    guard (negb (memo_required d) || e_memo e) (ETok NoMemo) ;;
    guard (u64_ok (t_amount d + amount)) (ETok Overflow) ;;
    l1 <- set_data prog ms src (DTok (set_amount (t_amount s1 - amount) s1)) l ;;
    l2 <- set_data prog ms dst (DTok (set_amount (t_amount d + amount) d)) l1 ;;
    move_native prog ms s src dst amount l2.

(** Processor::process_mint_to. *)
Definition tok_mint_to (prog : pubkey) (ms : list info) (mnt dst auth : pubkey) (signers : list pubkey)
    (amount : N) (l : ledger) : res ledger :=
  d <- unpack_tok prog (a_data (l dst)) ;;
  guard (negb (acct_state_eqb (t_state d) Frozen)) (ETok AccountFrozen) ;;
  guard (match t_native d with None => true | Some _ => false end) (ETok NonNativeNotSupported) ;;
  guard (pk_eqb (t_mint d) mnt) (ETok MintMismatch) ;;
  m <- unpack_mint prog (a_data (l mnt)) ;;
  guard (negb (ext_nontransferable m) || has_acct_ext XtImmutableOwner d) (ETok NonTransferableNeedsImmutableOwner) ;;
  guard (negb (ext_paused m)) (ETok MintPaused) ;;
  guard (negb (ext_conf_mint_burn m)) (ETok ConfidentialBlocked) ;;
  a <- of_option (m_auth m) (ETok FixedSupply) ;;
  validate_owner prog l ms a auth signers ;;
  guard (u64_ok (t_amount d + amount)) (ETok Overflow) ;;
  guard (u64_ok (m_supply m + amount)) (ETok Overflow) ;;
  l1 <- set_data prog ms dst (DTok (set_amount (t_amount d + amount) d)) l ;;
  set_data prog ms mnt (DMint (set_supply (m_supply m + amount) m)) l1.

(** Processor::process_burn. *)
Definition tok_burn (prog : pubkey) (cpi : bool) (ms : list info) (src mnt auth : pubkey) (signers : list pubkey)
    (amount : N) (l : ledger) : res ledger :=
  s <- unpack_tok prog (a_data (l src)) ;;
  m <- unpack_mint prog (a_data (l mnt)) ;;
  guard (negb (acct_state_eqb (t_state s) Frozen)) (ETok AccountFrozen) ;;
  guard (match t_native s with None => true | Some _ => false end) (ETok NonNativeNotSupported) ;;
  guard (amount <=? t_amount s) (ETok InsufficientFunds) ;;
  guard (pk_eqb (t_mint s) mnt) (ETok MintMismatch) ;;
  guard (negb (ext_paused m)) (ETok MintPaused) ;;
  guard (negb (ext_conf_mint_burn m)) (ETok ConfidentialBlocked) ;;
  s1 <- (if pk_eqb (t_owner s) system_id || pk_eqb (t_owner s) incinerator_id then Ok s
         else authorize_debit prog l ms cpi s m auth signers amount false) ;;
  guard (amount <=? m_supply m) (ETok Overflow) ;;
  l1 <- set_data prog ms src (DTok (set_amount (t_amount s1 - amount) s1)) l ;;
  set_data prog ms mnt (DMint (set_supply (m_supply m - amount) m)) l1.

(** delete_account: assign to the system program and truncate the data. *)
Definition delete_account (prog : pubkey) (ms : list info) (k : pubkey) (l : ledger) : res ledger :=
  guard (is_wr ms k) (ERt ReadonlyDataModified) ;;
  guard (pk_eqb (a_owner (l k)) prog) (ERt ExternalAccountDataModified) ;;
  Ok (upd l k (mkAcc (a_lamports (l k)) DEmpty system_id)).

(** Processor::process_close_account. *)
Definition tok_close (prog : pubkey) (cpi : bool) (ms : list info) (acc dst auth : pubkey) (signers : list pubkey)
    (l : ledger) : res ledger :=
  guard (negb (pk_eqb acc dst)) EInvalidAccountData ;;
  match a_data (l acc) with
  | DTok _ =>
      t <- unpack_tok prog (a_data (l acc)) ;;
      guard (match t_native t with None => t_amount t =? 0 | Some _ => true end) (ETok NonNativeHasBalance) ;;
      let authority := match t_close t with Some c => c | None => t_owner t end in
      (if pk_eqb (t_owner t) system_id || pk_eqb (t_owner t) incinerator_id then
         guard (pk_eqb dst incinerator_id) EInvalidAccountData
       else
         guard (negb (cpi && cpi_guard_locked t) || pk_eqb dst (t_owner t)) (ETok CpiGuardBlocked) ;;
         validate_owner prog l ms authority auth signers) ;;
      guard (confidential_of (t_exts t) =? 0) (ETok ConfidentialBlocked) ;;
      guard (withheld_of (t_exts t) =? 0) (ETok AccountHasWithheldTransferFees) ;;
      l1 <- move_lamports prog ms acc dst (a_lamports (l acc)) l ;;
      delete_account prog ms acc l1
  | DMint _ =>
      guard (negb (pk_eqb prog spl_token_id)) EInvalidAccountData ;;
      m <- unpack_mint prog (a_data (l acc)) ;;
      a <- of_option (ext_close_authority m) (ETok AuthorityTypeNotSupported) ;;
      validate_owner prog l ms a auth signers ;;
      guard (m_supply m =? 0) (ETok MintHasSupply) ;;
      l1 <- move_lamports prog ms acc dst (a_lamports (l acc)) l ;;
      delete_account prog ms acc l1
  | _ => Err EUninitializedAccount
  end.

(** Extension types of mint extensions, for duplicate detection. *)
Definition mint_ext_same (a b : mint_ext) : bool :=
  match a, b with
  | MxTransferFee _, MxTransferFee _
  | MxMintCloseAuthority _, MxMintCloseAuthority _
  | MxConfidentialTransferMint _ _ _, MxConfidentialTransferMint _ _ _
  | MxDefaultAccountState _, MxDefaultAccountState _
  | MxNonTransferable, MxNonTransferable
  | MxPermanentDelegate _, MxPermanentDelegate _
  | MxTransferHook _ _, MxTransferHook _ _
  | MxMetadataPointer _ _, MxMetadataPointer _ _
  | MxTokenMetadata _, MxTokenMetadata _
  | MxPausable _ _, MxPausable _ _
  | MxConfidentialMintBurn, MxConfidentialMintBurn => true
  | MxOther x _ _ _, MxOther y _ _ _ => x =? y
  | _, _ => false
  end.

(** Extension initialisation on an uninitialised mint (ConfidentialTransfer InitializeMint,
    MetadataPointer Initialize, InitializePermanentDelegate, ...).  TokenMetadata has its own
    instruction; a metadata pointer with neither authority nor address is refused. *)
Definition mint_ext_wf (x : mint_ext) : bool :=
  match x with
  | MxDefaultAccountState s => negb (acct_state_eqb s Uninitialized)
  | MxTransferFee c => (tf_bps (fc_newer c) <=? 10000) && (tf_bps (fc_older c) <=? 10000)
  | _ => true
  end.
Definition mint_ext_initializable (x : mint_ext) : bool :=
  mint_ext_wf x &&
  match x with
  | MxTokenMetadata _ => false
  | MxMetadataPointer None None => false
  | MxTransferHook None None => false
  | MxTransferFee c => fc_withheld c =? 0
  | _ => true
  end.
Definition tok_init_ext (prog : pubkey) (ms : list info) (k : pubkey) (x : mint_ext) (l : ledger) : res ledger :=
  guard (pk_eqb prog t22_id) (ETok InvalidInstruction) ;;
  guard (mint_ext_initializable x) (ETok InvalidInstruction) ;;
  m <- unpack_uninit_mint (a_data (l k)) ;;
  guard (negb (existsb (mint_ext_same x) (m_exts m))) (ETok ExtensionAlreadyInitialized) ;;
  guard (166 + tlv_total (map mint_ext_len (m_exts m ++ [x])) <=? m_len m) EInvalidAccountData ;;
  set_data prog ms k (DMint (set_mexts (m_exts m ++ [x]) (m_len m) m)) l.

(** Processor::process_initialize_mint2. *)
Definition tok_init_mint (e : env) (prog : pubkey) (ms : list info) (k : pubkey) (dec : N) (auth : pubkey)
    (freeze : option pubkey) (l : ledger) : res ledger :=
  m <- unpack_uninit_mint (a_data (l k)) ;;
  guard (e_rent e (m_len m) <=? a_lamports (l k)) (ETok NotRentExempt) ;;
  guard (m_len m =? mint_space (m_exts m)) EInvalidAccountData ;;
  guard (negb (pk_eqb prog spl_token_id) || is_nil (m_exts m)) EInvalidAccountData ;;
  guard (negb (acct_state_eqb (ext_default_state m) Frozen) || match freeze with Some _ => true | None => false end)
        (ETok MintCannotFreeze) ;;
  set_data prog ms k (DMint (mkMint (Some auth) 0 dec true freeze (m_exts m) (m_len m))) l.

(** ** Token metadata instructions (spl_token_metadata_interface, implemented by Token-2022). *)

(** TokenMetadata::update. *)
Fixpoint assoc_set (k v : string) (l : list (string * string)) : list (string * string) :=
  match l with
  | [] => [(k, v)]
  | (k', v') :: r => if String.eqb k' k then (k', v) :: r else (k', v') :: assoc_set k v r
  end.
Definition tm_update (f : field) (v : string) (t : token_metadata) : token_metadata :=
  match f with
  | FName => mkTM (tm_update_authority t) (tm_mint t) v (tm_symbol t) (tm_uri t) (tm_additional t)
  | FSymbol => mkTM (tm_update_authority t) (tm_mint t) (tm_name t) v (tm_uri t) (tm_additional t)
  | FUri => mkTM (tm_update_authority t) (tm_mint t) (tm_name t) (tm_symbol t) v (tm_additional t)
  | FKey k => mkTM (tm_update_authority t) (tm_mint t) (tm_name t) (tm_symbol t) (tm_uri t)
                   (assoc_set k v (tm_additional t))
  end.
(** TokenMetadata::remove_key ([retain]). *)
Definition tm_remove (k : string) (t : token_metadata) : token_metadata :=
  mkTM (tm_update_authority t) (tm_mint t) (tm_name t) (tm_symbol t) (tm_uri t)
       (filter (fun kv => negb (String.eqb (fst kv) k)) (tm_additional t)).
Definition tm_has_key (k : string) (t : token_metadata) : bool :=
  existsb (fun kv => String.eqb (fst kv) k) (tm_additional t).

(** The (first) metadata entry gets new contents. *)
Fixpoint replace_metadata (t : token_metadata) (x : list mint_ext) : list mint_ext :=
  match x with
  | [] => []
  | MxTokenMetadata _ :: r => MxTokenMetadata t :: r
  | e :: r => e :: replace_metadata t r
  end.

(** alloc_and_serialize_variable_len_extension: reallocates the account to the new size. *)
Definition write_mint_exts (e : env) (prog : pubkey) (ms : list info) (k : pubkey) (m : mint) (x : list mint_ext)
    (l : ledger) : res ledger :=
  guard (e_realloc_ok e (m_len m) (mint_space x)) EInvalidRealloc ;;
  set_data prog ms k (DMint (set_mexts x (mint_space x) m)) l.

(** Initialize: metas [metadata; update_authority; mint; mint_authority]. *)
Definition tok_md_initialize (e : env) (prog : pubkey) (ms : list info) (md ua mnt ma : pubkey)
    (name symbol uri : string) (l : ledger) : res ledger :=
  guard (pk_eqb prog t22_id) (ETok InvalidInstruction) ;;
  guard (pk_eqb md mnt) (ETok MintMismatch) ;;
  guard (pk_eqb (a_owner (l mnt)) prog) EIncorrectProgramId ;;
  m <- unpack_mint prog (a_data (l mnt)) ;;
  guard (is_sig ms ma) EMissingRequiredSignature ;;
  guard (opk_eqb (m_auth m) (Some ma)) (ETok IncorrectMintAuthority) ;;
  guard (match ext_pointer m with Some _ => true | None => false end) (ETok InvalidExtensionCombination) ;;
  guard (match ext_metadata m with Some _ => false | None => true end) (ETok ExtensionAlreadyInitialized) ;;
  let t := mkTM (if pk_eqb ua system_id then None else Some ua) mnt name symbol uri [] in
  write_mint_exts e prog ms mnt m (m_exts m ++ [MxTokenMetadata t]) l.

(** Common part of UpdateField / RemoveKey: metas [metadata; update_authority]. *)
Definition md_authorized (prog : pubkey) (ms : list info) (md ua : pubkey) (l : ledger) : res (mint * token_metadata) :=
  guard (pk_eqb prog t22_id) (ETok InvalidInstruction) ;;
  m <- unpack_mint prog (a_data (l md)) ;;
  t <- of_option (ext_metadata m) (ETok ExtensionNotFound) ;;
  guard (is_sig ms ua) EMissingRequiredSignature ;;
  guard (opk_eqb (tm_update_authority t) (Some ua)) (ETok IncorrectUpdateAuthority) ;;
  Ok (m, t).
Definition tok_md_update (e : env) (prog : pubkey) (ms : list info) (md ua : pubkey) (f : field) (v : string)
    (l : ledger) : res ledger :=
  mt <- md_authorized prog ms md ua l ;;
  let x := replace_metadata (tm_update f v (snd mt)) (m_exts (fst mt)) in
  write_mint_exts e prog ms md (fst mt) x l.
Definition tok_md_remove (e : env) (prog : pubkey) (ms : list info) (md ua : pubkey) (k : string) (idem : bool)
    (l : ledger) : res ledger :=
  mt <- md_authorized prog ms md ua l ;;
  guard (tm_has_key k (snd mt) || idem) (ETok KeyNotFound) ;;
  let x := replace_metadata (tm_remove k (snd mt)) (m_exts (fst mt)) in
  write_mint_exts e prog ms md (fst mt) x l.

(** ** Instructions used only by third parties *)

(** get_required_init_account_extensions: which account extensions a mint forces. *)
Definition required_exts_of (x : mint_ext) : list acct_ext_type :=
  match x with
  | MxTransferFee _ => [XtTransferFeeAmount]
  | MxNonTransferable => [XtNonTransferableAccount; XtImmutableOwner]
  | MxTransferHook _ _ => [XtTransferHookAccount]
  | MxPausable _ _ => [XtPausableAccount]
  | _ => []
  end.
(** try_for_each_required_init_account_extension (external): visits them in TLV order. *)
Definition required_init_account_exts (x : list mint_ext) : list acct_ext_type :=
  flat_map required_exts_of x.
Definition fresh_acct_ext (ty : acct_ext_type) : acct_ext :=
  match ty with
  | XtTransferFeeAmount => AxTransferFeeAmount 0
  | XtConfidentialTransferAccount => AxConfidentialTransferAccount 0
  | XtImmutableOwner => AxImmutableOwner
  | XtMemoTransfer => AxMemoTransfer false
  | XtNonTransferableAccount => AxNonTransferableAccount
  | XtCpiGuard => AxCpiGuard false
  | XtTransferHookAccount => AxTransferHookAccount
  | XtPausableAccount => AxPausableAccount
  | XtOther ty => AxOther ty 0 0
  end.
(** InitializeAccount3 (after an optional InitializeImmutableOwner).
    SIMPLIFICATION: the account must have exactly the length its extensions need. *)
Definition init_account_exts (prog : pubkey) (m : mint) (immutable : bool) : list acct_ext :=
  if pk_eqb prog spl_token_id then []
  else map fresh_acct_ext
         ((if immutable then [XtImmutableOwner] else []) ++
          filter (fun ty => negb (immutable && acct_ext_type_eqb ty XtImmutableOwner))
                 (required_init_account_exts (m_exts m))).
Definition is_native_mint (prog k : pubkey) : bool :=
  pk_eqb k (if pk_eqb prog spl_token_id then native_mint_id else native_mint_2022_id).
Definition tok_init_account (e : env) (prog : pubkey) (ms : list info) (k mnt owner : pubkey) (immutable : bool)
    (l : ledger) : res ledger :=
  m <- unpack_mint prog (a_data (l mnt)) ;;
  guard (pk_eqb prog spl_token_id || pk_eqb (a_owner (l mnt)) prog) EIncorrectProgramId ;;
  let x := init_account_exts prog m immutable in
  guard (match a_data (l k) with
         | DRaw r => all_zero r && (N.of_nat (length r) =? tok_space x)
         | _ => false end) (ETok AlreadyInUse) ;;
  guard (e_rent e (tok_space x) <=? a_lamports (l k)) (ETok NotRentExempt) ;;
  let reserve := e_rent e (tok_space x) in
  let native := if is_native_mint prog mnt then Some reserve else None in
  let amount := if is_native_mint prog mnt then a_lamports (l k) - reserve else 0 in
  set_data prog ms k (DTok (mkTok mnt owner amount None 0 (ext_default_state m) native None x)) l.

(** SyncNative: the token amount follows the lamports of a native account. *)
Definition tok_sync_native (prog : pubkey) (ms : list info) (k : pubkey) (l : ledger) : res ledger :=
  t <- unpack_tok prog (a_data (l k)) ;;
  r <- of_option (t_native t) (ETok NonNativeNotSupported) ;;
  guard ((r <=? a_lamports (l k)) && (t_amount t <=? a_lamports (l k) - r)) (ETok InvalidState) ;;
  set_data prog ms k (DTok (set_amount (a_lamports (l k) - r) t)) l.

Definition tok_init_multisig (prog : pubkey) (ms : list info) (k : pubkey) (m : multisig) (l : ledger) : res ledger :=
  guard (match a_data (l k) with
         | DRaw r => all_zero r && (N.of_nat (length r) =? multisig_len)
         | _ => false end) (ETok AlreadyInUse) ;;
  set_data prog ms k (DMultisig m) l.

Definition tok_approve (prog : pubkey) (ms : list info) (cpi : bool) (k delegate auth : pubkey) (signers : list pubkey)
    (amount : N) (l : ledger) : res ledger :=
  t <- unpack_tok prog (a_data (l k)) ;;
  guard (negb (acct_state_eqb (t_state t) Frozen)) (ETok AccountFrozen) ;;
  validate_owner prog l ms (t_owner t) auth signers ;;
  guard (negb (cpi && cpi_guard_locked t)) (ETok CpiGuardBlocked) ;;
  set_data prog ms k (DTok (set_delegate (Some delegate) amount t)) l.

(** Revoke: owner (or, on Token-2022, the delegate itself). *)
Definition tok_revoke (prog : pubkey) (ms : list info) (k auth : pubkey) (signers : list pubkey) (l : ledger) : res ledger :=
  t <- unpack_tok prog (a_data (l k)) ;;
  guard (negb (acct_state_eqb (t_state t) Frozen)) (ETok AccountFrozen) ;;
  validate_owner prog l ms
    (if pk_eqb prog t22_id && opk_eqb (t_delegate t) (Some auth) then auth else t_owner t) auth signers ;;
  set_data prog ms k (DTok (set_delegate None 0 t)) l.

Inductive authority_type := AuMintTokens | AuFreezeAccount | AuAccountOwner | AuCloseAccount.
Definition tok_set_authority (prog : pubkey) (ms : list info) (cpi : bool) (k auth : pubkey) (signers : list pubkey)
    (ty : authority_type) (new : option pubkey) (l : ledger) : res ledger :=
  match a_data (l k) with
  | DTok _ =>
      t <- unpack_tok prog (a_data (l k)) ;;
      guard (negb (acct_state_eqb (t_state t) Frozen)) (ETok AccountFrozen) ;;
      match ty with
      | AuAccountOwner =>
          validate_owner prog l ms (t_owner t) auth signers ;;
          guard (negb (has_acct_ext XtImmutableOwner t)) (ETok ImmutableOwnerErr) ;;
          guard (negb (cpi_guard_locked t)) (ETok CpiGuardBlocked) ;;
          o <- of_option new (ETok InvalidInstruction) ;;
          set_data prog ms k
            (DTok (let t1 := set_towner o (set_delegate None 0 t) in
                   match t_native t with None => t1 | Some _ => set_close None t1 end)) l
      | AuCloseAccount =>
          validate_owner prog l ms (match t_close t with Some c => c | None => t_owner t end) auth signers ;;
          guard (negb (cpi && cpi_guard_locked t)) (ETok CpiGuardBlocked) ;;
          set_data prog ms k (DTok (set_close new t)) l
      | _ => Err (ETok AuthorityTypeNotSupported)
      end
  | DMint _ =>
      m <- unpack_mint prog (a_data (l k)) ;;
      match ty with
      | AuMintTokens =>
          a <- of_option (m_auth m) (ETok FixedSupply) ;;
          validate_owner prog l ms a auth signers ;;
          set_data prog ms k (DMint (set_mauth new m)) l
      | AuFreezeAccount =>
          a <- of_option (m_freeze m) (ETok MintCannotFreeze) ;;
          validate_owner prog l ms a auth signers ;;
          set_data prog ms k (DMint (set_mfreeze new m)) l
      | _ => Err (ETok AuthorityTypeNotSupported)
      end
  | _ => Err EInvalidArgument
  end.

(** FreezeAccount / ThawAccount: metas [account; mint; freeze authority]. *)
Definition tok_freeze (prog : pubkey) (ms : list info) (k mnt auth : pubkey) (signers : list pubkey) (frz : bool)
    (l : ledger) : res ledger :=
  t <- unpack_tok prog (a_data (l k)) ;;
  guard (negb (Bool.eqb frz (acct_state_eqb (t_state t) Frozen))) (ETok InvalidState) ;;
  guard (match t_native t with None => true | _ => false end) (ETok NonNativeNotSupported) ;;
  guard (pk_eqb (t_mint t) mnt) (ETok MintMismatch) ;;
  m <- unpack_mint prog (a_data (l mnt)) ;;
  a <- of_option (m_freeze m) (ETok MintCannotFreeze) ;;
  validate_owner prog l ms a auth signers ;;
  set_data prog ms k (DTok (set_state (if frz then Frozen else Initialized) t)) l.

(** Who may reconfigure a mint extension after initialisation. *)
Definition ext_authority (m : mint) (x : mint_ext) : option pubkey :=
  match x with
  | MxTransferFee c => fc_authority c
  | MxMintCloseAuthority a => a
  | MxConfidentialTransferMint a _ _ => a
  | MxDefaultAccountState _ => m_freeze m
  | MxNonTransferable => None
  | MxPermanentDelegate d => d
  | MxTransferHook a _ => a
  | MxMetadataPointer a _ => a
  | MxTokenMetadata t => tm_update_authority t
  | MxPausable a _ => a
  | MxConfidentialMintBurn => None
  | MxOther _ _ a _ => a
  end.
Definition ext_withheld (x : mint_ext) : N :=
  match x with MxTransferFee c => fc_withheld c | _ => 0 end.
(** The (first) entry of the same type gets new contents. *)
Fixpoint replace_ext (x : mint_ext) (l : list mint_ext) : list mint_ext :=
  match l with
  | [] => []
  | y :: r => if mint_ext_same x y then x :: r else y :: replace_ext x r
  end.
(** Any extension-specific update (SetTransferFee, Pause, UpdateMint, pointer updates,
    SetAuthority for extension authorities, ...), over-approximated: the extension's current
    authority may replace its contents, except withheld fees. *)
Definition tok_update_ext (e : env) (prog : pubkey) (ms : list info) (k auth : pubkey) (signers : list pubkey)
    (x : mint_ext) (l : ledger) : res ledger :=
  guard (pk_eqb prog t22_id) (ETok InvalidInstruction) ;;
  m <- unpack_mint prog (a_data (l k)) ;;
  old <- of_option (find (mint_ext_same x) (m_exts m)) (ETok ExtensionNotFound) ;;
  a <- of_option (ext_authority m old) (ETok NoAuthorityExists) ;;
  validate_owner prog l ms a auth signers ;;
  guard (mint_ext_wf x && (ext_withheld old =? ext_withheld x)) (ETok InvalidInstruction) ;;
  write_mint_exts e prog ms k m (replace_ext x (m_exts m)) l.

(** Any owner-driven change of account extensions (Reallocate, memo and CPI-guard switches,
    confidential ConfigureAccount, ...): the owner may replace the extension list as long as
    ImmutableOwner, withheld fees and the confidential balance are preserved and no extension
    occurs twice. *)
Fixpoint distinct_types (x : list acct_ext_type) : bool :=
  match x with
  | [] => true
  | y :: r => negb (existsb (acct_ext_type_eqb y) r) && distinct_types r
  end.
Definition tok_update_acct_exts (prog : pubkey) (ms : list info) (k auth : pubkey) (signers : list pubkey)
    (x : list acct_ext) (l : ledger) : res ledger :=
  guard (pk_eqb prog t22_id) (ETok InvalidInstruction) ;;
  t <- unpack_tok prog (a_data (l k)) ;;
  validate_owner prog l ms (t_owner t) auth signers ;;
  guard (negb (has_acct_ext XtImmutableOwner t) || has_acct_ext XtImmutableOwner (set_texts x t)) (ETok ImmutableOwnerErr) ;;
  guard ((withheld_of x =? withheld_of (t_exts t)) && (confidential_of x =? confidential_of (t_exts t))
         && distinct_types (map acct_ext_type_of x)) (ETok InvalidInstruction) ;;
  set_data prog ms k (DTok (set_texts x t)) l.

(** Confidential transfers: the hidden balance is the payload of the account extension. *)
Fixpoint set_confidential (n : N) (x : list acct_ext) : list acct_ext :=
  match x with
  | [] => []
  | AxConfidentialTransferAccount _ :: r => AxConfidentialTransferAccount n :: r
  | e :: r => e :: set_confidential n r
  end.
Definition conf_payload (x : list acct_ext) : option N :=
  find_map (fun e => match e with AxConfidentialTransferAccount n => Some n | _ => None end) x.
Definition ext_confidential (m : mint) : bool :=
  existsb (fun e => match e with MxConfidentialTransferMint _ _ _ => true | _ => false end) (m_exts m).
(** Deposit ([inward = true]) or Withdraw of [amount] by the account owner. *)
Definition tok_confidential (prog : pubkey) (ms : list info) (k mnt auth : pubkey) (signers : list pubkey)
    (inward : bool) (amount : N) (l : ledger) : res ledger :=
  guard (pk_eqb prog t22_id) (ETok InvalidInstruction) ;;
  t <- unpack_tok prog (a_data (l k)) ;;
  guard (pk_eqb (t_mint t) mnt) (ETok MintMismatch) ;;
  m <- unpack_mint prog (a_data (l mnt)) ;;
  guard (ext_confidential m && negb (ext_conf_mint_burn m)) (ETok ExtensionNotFound) ;;
  guard (negb (acct_state_eqb (t_state t) Frozen)) (ETok AccountFrozen) ;;
  validate_owner prog l ms (t_owner t) auth signers ;;
  c <- of_option (conf_payload (t_exts t)) (ETok ExtensionNotFound) ;;
  if inward then
    guard (amount <=? t_amount t) (ETok InsufficientFunds) ;;
    set_data prog ms k (DTok (set_texts (set_confidential (c + amount) (t_exts t)) (set_amount (t_amount t - amount) t))) l
  else
    guard (amount <=? c) (ETok InsufficientFunds) ;;
    guard (u64_ok (t_amount t + amount)) (ETok Overflow) ;;
    set_data prog ms k (DTok (set_texts (set_confidential (c - amount) (t_exts t)) (set_amount (t_amount t + amount) t))) l.

(** Confidential transfer between two accounts of a mint; [amount] is hidden on chain, the
    zero-knowledge proofs guarantee it does not exceed the balance.
    SIMPLIFICATION: the variant with confidential fees is not modelled. *)
Definition tok_confidential_transfer (e : env) (prog : pubkey) (ms : list info) (src mnt dst auth : pubkey)
    (signers : list pubkey) (amount : N) (l : ledger) : res ledger :=
  guard (pk_eqb prog t22_id) (ETok InvalidInstruction) ;;
  guard (negb (pk_eqb src dst)) (ETok InvalidInstruction) ;;
  s <- unpack_tok prog (a_data (l src)) ;;
  d <- unpack_tok prog (a_data (l dst)) ;;
  m <- unpack_mint prog (a_data (l mnt)) ;;
  guard (pk_eqb (t_mint s) mnt && pk_eqb (t_mint d) mnt) (ETok MintMismatch) ;;
  guard (negb (acct_state_eqb (t_state s) Frozen || acct_state_eqb (t_state d) Frozen)) (ETok AccountFrozen) ;;
  guard (ext_confidential m) (ETok ExtensionNotFound) ;;
  guard (negb (ext_paused m)) (ETok MintPaused) ;;
  guard (negb (memo_required d) || e_memo e) (ETok NoMemo) ;;
  validate_owner prog l ms (t_owner s) auth signers ;;
  cs <- of_option (conf_payload (t_exts s)) (ETok ExtensionNotFound) ;;
  cd <- of_option (conf_payload (t_exts d)) (ETok ExtensionNotFound) ;;
  guard (amount <=? cs) (ETok InsufficientFunds) ;;
  l1 <- set_data prog ms src (DTok (set_texts (set_confidential (cs - amount) (t_exts s)) s)) l ;;
  l2 <- set_data prog ms dst (DTok (set_texts (set_confidential (cd + amount) (t_exts d)) d)) l1 ;;
  run_hook e m ms amount l2.

(** Withheld fees: harvest [src] into the mint (permissionless). *)
Fixpoint set_fee_withheld (n : N) (x : list mint_ext) : list mint_ext :=
  match x with
  | [] => []
  | MxTransferFee c :: r => MxTransferFee (mkFeeConfig (fc_authority c) (fc_withdraw_authority c) n (fc_older c) (fc_newer c)) :: r
  | e :: r => e :: set_fee_withheld n r
  end.
Definition tok_harvest (prog : pubkey) (ms : list info) (mnt src : pubkey) (l : ledger) : res ledger :=
  guard (pk_eqb prog t22_id) (ETok InvalidInstruction) ;;
  t <- unpack_tok prog (a_data (l src)) ;;
  guard (pk_eqb (t_mint t) mnt) (ETok MintMismatch) ;;
  m <- unpack_mint prog (a_data (l mnt)) ;;
  c <- of_option (ext_fee m) (ETok ExtensionNotFound) ;;
  l1 <- set_data prog ms src (DTok (set_texts (clear_withheld (t_exts t)) t)) l ;;
  set_data prog ms mnt (DMint (set_mexts (set_fee_withheld (fc_withheld c + withheld_of (t_exts t)) (m_exts m)) (m_len m) m)) l1.
(** WithdrawWithheldTokensFromMint: everything withheld on the mint goes to [dst]. *)
Definition tok_withdraw_withheld (prog : pubkey) (ms : list info) (mnt dst auth : pubkey) (signers : list pubkey)
    (l : ledger) : res ledger :=
  guard (pk_eqb prog t22_id) (ETok InvalidInstruction) ;;
  m <- unpack_mint prog (a_data (l mnt)) ;;
  c <- of_option (ext_fee m) (ETok ExtensionNotFound) ;;
  a <- of_option (fc_withdraw_authority c) (ETok NoAuthorityExists) ;;
  validate_owner prog l ms a auth signers ;;
  t <- unpack_tok prog (a_data (l dst)) ;;
  guard (pk_eqb (t_mint t) mnt) (ETok MintMismatch) ;;
  guard (negb (acct_state_eqb (t_state t) Frozen)) (ETok AccountFrozen) ;;
  guard (u64_ok (t_amount t + fc_withheld c)) (ETok Overflow) ;;
  l1 <- set_data prog ms dst (DTok (set_amount (t_amount t + fc_withheld c) t)) l ;;
  set_data prog ms mnt (DMint (set_mexts (set_fee_withheld 0 (m_exts m)) (m_len m) m)) l1.

(** WithdrawWithheldTokensFromAccounts, for one source account. *)
Definition tok_withdraw_withheld_from (prog : pubkey) (ms : list info) (mnt dst auth src : pubkey) (signers : list pubkey)
    (l : ledger) : res ledger :=
  guard (pk_eqb prog t22_id) (ETok InvalidInstruction) ;;
  m <- unpack_mint prog (a_data (l mnt)) ;;
  c <- of_option (ext_fee m) (ETok ExtensionNotFound) ;;
  a <- of_option (fc_withdraw_authority c) (ETok NoAuthorityExists) ;;
  validate_owner prog l ms a auth signers ;;
  s <- unpack_tok prog (a_data (l src)) ;;
  guard (pk_eqb (t_mint s) mnt) (ETok MintMismatch) ;;
  l1 <- set_data prog ms src (DTok (set_texts (clear_withheld (t_exts s)) s)) l ;;
  t <- unpack_tok prog (a_data (l1 dst)) ;;
  guard (pk_eqb (t_mint t) mnt) (ETok MintMismatch) ;;
  guard (negb (acct_state_eqb (t_state t) Frozen)) (ETok AccountFrozen) ;;
  guard (u64_ok (t_amount t + withheld_of (t_exts s))) (ETok Overflow) ;;
  set_data prog ms dst (DTok (set_amount (t_amount t + withheld_of (t_exts s)) t)) l1.

(** WithdrawExcessLamports: lamports beyond rent exemption, for the mint authority (the mint's
    own key without one), the account owner or the multisig. *)
Definition tok_withdraw_excess (e : env) (prog : pubkey) (ms : list info) (k dst auth : pubkey) (signers : list pubkey)
    (l : ledger) : res ledger :=
  guard (pk_eqb prog t22_id) (ETok InvalidInstruction) ;;
  (match a_data (l k) with
   | DTok t =>
       guard (match t_native t with None => true | _ => false end) (ETok NonNativeNotSupported) ;;
       validate_owner prog l ms (t_owner t) auth signers
   | DMint m => validate_owner prog l ms (match m_auth m with Some a => a | None => k end) auth signers
   | DMultisig _ => validate_owner prog l ms k auth signers
   | _ => Err (ETok InvalidState)
   end) ;;
  guard (e_rent e (data_len (a_data (l k))) <=? a_lamports (l k)) (ETok NotRentExempt) ;;
  move_lamports prog ms k dst (a_lamports (l k) - e_rent e (data_len (a_data (l k)))) l.

(** ** Dispatch *)
Inductive tok_ix :=
| TiInitializeMint2 (dec : N) (auth : pubkey) (freeze : option pubkey)
| TiInitExt (x : mint_ext)
| TiTransferChecked (amount dec : N)
| TiTransferCheckedWithFee (amount dec fee : N)
| TiMintTo (amount : N)
| TiBurn (amount : N)
| TiCloseAccount
| TiMdInitialize (name symbol uri : string)
| TiMdUpdateField (f : field) (v : string)
| TiMdRemoveKey (k : string) (idempotent : bool)
(* third parties only *)
| TiTransfer (amount : N)
| TiInitializeAccount (owner : pubkey) (immutable : bool)
| TiSyncNative
| TiInitializeMultisig (m : multisig)
| TiApprove (amount : N)
| TiRevoke
| TiSetAuthority (ty : authority_type) (new : option pubkey)
| TiFreeze (frz : bool)
| TiUpdateExt (x : mint_ext)
| TiUpdateAcctExts (x : list acct_ext)
| TiConfidential (inward : bool) (amount : N)
| TiConfidentialTransfer (amount : N)
| TiHarvest
| TiWithdrawWithheld
| TiWithdrawWithheldFrom
| TiWithdrawExcess.

Definition tok_exec (e : env) (prog : pubkey) (cpi : bool) (ms : list info) (ix : tok_ix) (l : ledger) : res ledger :=
  match ix, map i_key ms with
  | TiInitializeMint2 dec auth freeze, k :: _ => tok_init_mint e prog ms k dec auth freeze l
  | TiInitExt x, k :: _ => tok_init_ext prog ms k x l
  | TiTransferChecked amount dec, src :: mnt :: dst :: auth :: rest =>
      tok_transfer_checked e prog cpi ms src mnt dst auth rest amount dec None l
  | TiTransferCheckedWithFee amount dec fee, src :: mnt :: dst :: auth :: rest =>
      guard (pk_eqb prog t22_id) (ETok InvalidInstruction) ;;
      tok_transfer_checked e prog cpi ms src mnt dst auth rest amount dec (Some fee) l
  | TiMintTo amount, mnt :: dst :: auth :: rest => tok_mint_to prog ms mnt dst auth rest amount l
  | TiBurn amount, src :: mnt :: auth :: rest => tok_burn prog cpi ms src mnt auth rest amount l
  | TiCloseAccount, acc :: dst :: auth :: rest => tok_close prog cpi ms acc dst auth rest l
  | TiMdInitialize n s u, md :: ua :: mnt :: ma :: _ => tok_md_initialize e prog ms md ua mnt ma n s u l
  | TiMdUpdateField f v, md :: ua :: _ => tok_md_update e prog ms md ua f v l
  | TiMdRemoveKey k idem, md :: ua :: _ => tok_md_remove e prog ms md ua k idem l
  | TiTransfer amount, src :: dst :: auth :: rest => tok_transfer_plain e prog cpi ms src dst auth rest amount l
  | TiInitializeAccount owner imm, k :: mnt :: _ => tok_init_account e prog ms k mnt owner imm l
  | TiSyncNative, k :: _ => tok_sync_native prog ms k l
  | TiInitializeMultisig m, k :: _ => tok_init_multisig prog ms k m l
  | TiApprove amount, k :: delegate :: auth :: rest => tok_approve prog ms cpi k delegate auth rest amount l
  | TiRevoke, k :: auth :: rest => tok_revoke prog ms k auth rest l
  | TiSetAuthority ty new, k :: auth :: rest => tok_set_authority prog ms cpi k auth rest ty new l
  | TiFreeze frz, k :: mnt :: auth :: rest => tok_freeze prog ms k mnt auth rest frz l
  | TiUpdateExt x, k :: auth :: rest => tok_update_ext e prog ms k auth rest x l
  | TiUpdateAcctExts x, k :: auth :: rest => tok_update_acct_exts prog ms k auth rest x l
  | TiConfidential inward amount, k :: mnt :: auth :: rest => tok_confidential prog ms k mnt auth rest inward amount l
  | TiHarvest, mnt :: src :: _ => tok_harvest prog ms mnt src l
  | TiConfidentialTransfer amount, src :: mnt :: dst :: auth :: rest =>
      tok_confidential_transfer e prog ms src mnt dst auth rest amount l
  | TiWithdrawWithheld, mnt :: dst :: auth :: rest => tok_withdraw_withheld prog ms mnt dst auth rest l
  | TiWithdrawWithheldFrom, mnt :: dst :: auth :: src :: rest => tok_withdraw_withheld_from prog ms mnt dst auth src rest l
  | TiWithdrawExcess, k :: dst :: auth :: rest => tok_withdraw_excess e prog ms k dst auth rest l
  | _, _ => Err ENotEnoughAccountKeys
  end.
