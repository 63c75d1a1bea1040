(** * Spec.v — the vocabulary in which the properties are stated.

    Small and independent of the functions that model the code: it only looks at accounts
    (records and constructors of State.v) and at the outcome of running the program on
    encoded instructions. *)
From Verif Require Import Base Codec State Pda TokenProg Cpi Meta Processor.

(** ** Running an instruction *)

(** [accounts] is the account list of the instruction, in order; the program is the official
    deployment; [ix] travels in its wire encoding. *)
Definition outcome (e : env) (accounts : list info) (ix : tw_instr (list N)) (l : ledger) : res ledger :=
  process_instruction e (mkCtx tw_id accounts) (pack ix) l.
Definition succeeds (e : env) (accounts : list info) (ix : tw_instr (list N)) (l l' : ledger) : Prop :=
  outcome e accounts ix l = Ok l'.
Definition fails (e : env) (accounts : list info) (ix : tw_instr (list N)) (l : ledger) (err : error) : Prop :=
  outcome e accounts ix l = Err err.

(** The addresses of the account list, in order, followed by any further accounts. *)
Definition keys_are (accounts : list info) (ks : list pubkey) : Prop :=
  exists more, map i_key accounts = ks ++ more.

(** ** Looking at accounts *)
Definition token_account (l : ledger) (k prog : pubkey) (t : tokacc) : Prop :=
  a_owner (l k) = prog /\ a_data (l k) = DTok t /\ t_state t <> Uninitialized.
Definition mint_data (l : ledger) (k : pubkey) (m : mint) : Prop :=
  a_data (l k) = DMint m /\ m_init m = true.
Definition mint_account (l : ledger) (k prog : pubkey) (m : mint) : Prop :=
  a_owner (l k) = prog /\ mint_data l k m.
Definition balance (l : ledger) (k : pubkey) : N :=
  match a_data (l k) with DTok t => t_amount t | _ => 0 end.
Definition supply (l : ledger) (k : pubkey) : N :=
  match a_data (l k) with DMint m => m_supply m | _ => 0 end.
Definition lamports (l : ledger) (k : pubkey) : N := a_lamports (l k).
(** No data, still with the system program: what an account looks like before CreateMint. *)
Definition unallocated (l : ledger) (k : pubkey) : Prop :=
  a_data (l k) = DRaw [] /\ a_owner (l k) = system_id.
Definition spl_or_t22 (p : pubkey) : Prop := p = spl_token_id \/ p = t22_id.

(** ** Signatures.  [k] has signed, or it is a multisig account of program [prog] and enough of
    its members have. *)
Definition signed (accounts : list info) (k : pubkey) : Prop :=
  exists i, In i accounts /\ i_key i = k /\ i_signer i = true.
Definition signed_by (accounts : list info) (l : ledger) (prog k : pubkey) : Prop :=
  signed accounts k \/
  exists m, a_owner (l k) = prog /\ a_data (l k) = DMultisig m /\
    ms_m m <= N.of_nat (length (filter (is_sig accounts) (ms_signers m))).

(** ** Transfer fees (Token-2022 TransferFeeConfig): [amount * bps / 10000] rounded up, capped;
    the newer rate applies from its epoch on. *)
Definition least (P : N -> Prop) (n : N) : Prop := P n /\ forall x, P x -> n <= x.
Definition fee_at (rate : transfer_fee) (amount fee : N) : Prop :=
  exists raw, least (fun x => amount * tf_bps rate <= x * 10000) raw /\ fee = N.min raw (tf_max rate).
Definition fee_for (m : mint) (epoch amount fee : N) : Prop :=
  match ext_fee m with
  | None => fee = 0
  | Some cfg =>
      (tf_epoch (fc_newer cfg) <= epoch /\ fee_at (fc_newer cfg) amount fee) \/
      (epoch < tf_epoch (fc_newer cfg) /\ fee_at (fc_older cfg) amount fee)
  end.

(** ** Transfer hooks.  A hook is foreign code that runs inside the transfer.  It cannot touch
    [k] when there is none, when [k] was not passed as writable, or when [k] is protected by
    re-entrancy (Token-2022, token-wrap) or is an address only token-wrap signs for. *)
Definition hook_cannot_reach (m : mint) (accounts : list info) (l : ledger) (k : pubkey) : Prop :=
  ext_hook m = None \/ ~ (exists i, In i accounts /\ i_key i = k /\ i_writable i = true) \/
  a_owner (l k) = t22_id \/ a_owner (l k) = tw_id \/ is_tw_pda k = true.

(** ** Changes of token accounts *)

(** Everything but amount, delegation and extensions' contents stays; so does the size. *)
Definition same_account (t t' : tokacc) : Prop :=
  t_mint t' = t_mint t /\ t_owner t' = t_owner t /\ t_state t' = t_state t /\ t_native t' = t_native t /\
  t_close t' = t_close t /\ map acct_ext_type_of (t_exts t') = map acct_ext_type_of (t_exts t) /\ tok_space (t_exts t') = tok_space (t_exts t).
(** Delegation after a debit of [amount] authorised by [auth]: unchanged, unless [auth] acted
    as the delegate. *)
Definition delegation_after (t t' : tokacc) (auth : pubkey) (amount : N) : Prop :=
  (t_delegate t' = t_delegate t /\ t_delegated t' = t_delegated t) \/
  (t_delegate t = Some auth /\ amount <= t_delegated t /\ t_delegated t' = t_delegated t - amount /\
   t_delegate t' = (if t_delegated t - amount =? 0 then None else Some auth)).
(** Lamports that travel with the tokens of a wrapped-SOL account. *)
Definition native_part (t : tokacc) (amount : N) : N :=
  match t_native t with Some _ => amount | None => 0 end.
(** Total transfer fees withheld on a token account. *)
Definition withheld (t : tokacc) : N :=
  fold_right (fun x acc => match x with AxTransferFeeAmount n => n + acc | _ => acc end) 0 (t_exts t).

(** ** Derivable addresses: some bump gives an off-curve hash (each bump fails with
    probability 1/2, so this holds for all practical purposes; otherwise derivation panics). *)
Definition derivable (e : env) (seeds : list atom) (prog : pubkey) : Prop :=
  exists b, 1 <= b <= 255 /\ e_off_curve e (seeds ++ [inl b]) prog = true.
Definition addresses_exist (e : env) (u wtp : pubkey) : Prop :=
  derivable e (wrapped_mint_seeds u wtp) tw_id /\
  derivable e (wrapped_mint_authority_seeds (wrapped_mint_of e u wtp)) tw_id /\
  derivable e (backpointer_seeds (wrapped_mint_of e u wtp)) tw_id.

(** ** Metadata *)

(** Metaplex metadata [x], seen as token metadata of mint [u]. *)
Definition from_metaplex (e : env) (u : pubkey) (x : mpl_metadata) : token_metadata :=
  mkTM (if pk_eqb (mx_update_authority x) system_id then None else Some (mx_update_authority x))
       u (mx_name x) (mx_symbol x) (mx_uri x) (extract_additional_metadata e x).
(** The metadata pointer and the metadata stored on a mint. *)
Definition pointer_of (m : mint) (address : option pubkey) : Prop := exists authority, ext_pointer m = Some (authority, address).
Definition no_pointer (m : mint) : Prop := ext_pointer m = None.
Definition own_metadata (m : mint) (t : token_metadata) : Prop := ext_metadata m = Some t.
Definition metaplex_account (l : ledger) (k : pubkey) (x : mpl_metadata) : Prop :=
  a_owner (l k) = mpl_id /\ a_data (l k) = DMpl x.

(** The metadata that belongs to mint [u] on ledger [l]. *)
Inductive authentic_metadata (e : env) (l : ledger) (u : pubkey) : token_metadata -> Prop :=
| am_spl x :                      (* SPL Token mint: its Metaplex account *)
    a_owner (l u) = spl_token_id -> metaplex_account l (metaplex_of e u) x ->
    authentic_metadata e l u (from_metaplex e u x)
| am_t22_plain m x :              (* Token-2022 mint without pointer: its Metaplex account *)
    mint_account l u t22_id m -> no_pointer m -> metaplex_account l (metaplex_of e u) x ->
    authentic_metadata e l u (from_metaplex e u x)
| am_self m t :                   (* pointer to itself: the mint's own extension *)
    mint_account l u t22_id m -> pointer_of m (Some u) -> own_metadata m t ->
    authentic_metadata e l u t
| am_metaplex m a x :             (* pointer to a Metaplex account *)
    mint_account l u t22_id m -> pointer_of m (Some a) -> a <> u -> metaplex_account l a x ->
    authentic_metadata e l u (from_metaplex e u x)
| am_foreign m a prog t :         (* pointer to another program's account: that program's answer *)
    mint_account l u t22_id m -> pointer_of m (Some a) -> a <> u ->
    a_owner (l a) = prog -> prog <> t22_id -> prog <> mpl_id ->
    e_emit e prog a (l a) = Ok (Some (prog, Ok t)) ->
    authentic_metadata e l u t.

(** The value a list of fields gives to a key: its last occurrence. *)
Definition field_value (fields : list (string * string)) (k v : string) : Prop :=
  exists pre post, fields = pre ++ (k, v) :: post /\ ~ In k (map fst post).
(** The fields [xs] are exactly those of [src], each once. *)
Definition same_fields (src xs : list (string * string)) : Prop :=
  NoDup (map fst xs) /\ forall k v, In (k, v) xs <-> field_value src k v.
Definition distinct_keys (xs : list (string * string)) : Prop := NoDup (map fst xs).

(** ** Wire format *)
Definition bytes (bs : list N) : Prop := Forall (fun b => b < 256) bs.
Fixpoint little_endian (bs : list N) : N :=
  match bs with [] => 0 | b :: r => b + 256 * little_endian r end.
(** [wire i bs]: [bs] is the encoding of instruction [i]. *)
Inductive wire : tw_instr (list N) -> list N -> Prop :=
| wire_create_mint (idempotent : bool) : wire (CreateMint idempotent) [0; if idempotent then 1 else 0]
| wire_wrap amount bs : bytes bs -> length bs = 8%nat -> little_endian bs = amount -> wire (Wrap amount) (1 :: bs)
| wire_unwrap amount bs : bytes bs -> length bs = 8%nat -> little_endian bs = amount -> wire (Unwrap amount) (2 :: bs)
| wire_close : wire CloseStuckEscrow [3]
| wire_sync_t22 : wire SyncMetadataToToken2022 [4]
| wire_sync_spl : wire SyncMetadataToSplToken [5]
| wire_pointer bs : bytes bs -> length bs = 32%nat -> wire (SetCanonicalPointer bs) (6 :: bs).
(** Instructions Rust can express: amounts are u64, a program id is 32 bytes. *)
Definition expressible (i : tw_instr (list N)) : Prop :=
  match i with
  | Wrap a | Unwrap a => a < 2 ^ 64
  | SetCanonicalPointer k => length k = 32%nat /\ bytes k
  | _ => True
  end.
(** Error codes, in the documented order. *)
Definition documented_errors : list tw_error :=
  [ WrappedMintMismatch; BackpointerMismatch; ZeroWrapAmount; MintAuthorityMismatch; EscrowOwnerMismatch;
    InvalidWrappedMintOwner; InvalidBackpointerOwner; EscrowMismatch; EscrowInGoodState; UnwrappedMintHasNoMetadata;
    MetaplexMetadataMismatch; MetadataPointerMissing; MetadataPointerUnset; MetadataPointerMismatch;
    ExternalProgramReturnedNoData; NoSyncingToToken2022 ].

(** ** Address kinds: what the public derivation functions return. *)
Inductive address_kind := KWrappedMint | KAuthority | KBackpointer | KCanonicalPointer | KEscrow | KMetaplex.
Inductive derived (e : env) : address_kind -> list pubkey -> pubkey -> Prop :=
| dv_wrapped u wtp prog k : get_wrapped_mint_address_for_program e u wtp prog = Ok k -> derived e KWrappedMint [u; wtp; prog] k
| dv_authority w prog k : get_wrapped_mint_authority_for_program e w prog = Ok k -> derived e KAuthority [w; prog] k
| dv_backpointer w prog k : get_wrapped_mint_backpointer_address_for_program e w prog = Ok k -> derived e KBackpointer [w; prog] k
| dv_canonical u prog k : get_canonical_pointer_address_for_program e u prog = Ok k -> derived e KCanonicalPointer [u; prog] k
| dv_escrow u utp wtp prog k : get_escrow_address_for_program e u utp wtp prog = Ok k -> derived e KEscrow [u; utp; wtp; prog] k
| dv_metaplex m k b : metaplex_find_pda e m = Ok (k, b) -> derived e KMetaplex [m] k.

(** ** CreateMint *)
Definition no_data (l : ledger) (k : pubkey) : Prop := data_len (a_data (l k)) = 0.
Definition has_data (l : ledger) (k : pubkey) : Prop := data_len (a_data (l k)) <> 0.
Definition writable (accounts : list info) (k : pubkey) : Prop :=
  exists i, In i accounts /\ i_key i = k /\ i_writable i = true.
(** The extensions of a wrapped mint [w] with authority [a] under token program [p]. *)
Definition promised_extensions (p w a : pubkey) (x : list mint_ext) : Prop :=
  (p = spl_token_id /\ x = []) \/
  (p = t22_id /\ x = [ MxConfidentialTransferMint None true None;        (* no authority, auto-approve, no auditor *)
                       MxMetadataPointer (Some a) (Some w) ]).           (* points at the mint, controlled by [a] *)
(** Account sizes: 82 bytes for SPL Token; 303 for Token-2022 with these two extensions. *)
Definition promised_size (p : pubkey) (n : N) : Prop := (p = spl_token_id /\ n = 82) \/ (p = t22_id /\ n = 303).

(** ** CloseStuckEscrow *)

(** Account extensions a mint demands of its token accounts. *)
Inductive demands (m : mint) : acct_ext_type -> Prop :=
| demands_fee c : In (MxTransferFee c) (m_exts m) -> demands m XtTransferFeeAmount
| demands_non_transferable : In MxNonTransferable (m_exts m) -> demands m XtNonTransferableAccount
| demands_immutable_owner : In MxNonTransferable (m_exts m) -> demands m XtImmutableOwner
| demands_hook a p : In (MxTransferHook a p) (m_exts m) -> demands m XtTransferHookAccount
| demands_pausable a b : In (MxPausable a b) (m_exts m) -> demands m XtPausableAccount.
(** The account carries exactly what its mint demands, and ImmutableOwner. *)
Definition healthy (m : mint) (t : tokacc) : Prop :=
  forall ty, In ty (map acct_ext_type_of (t_exts t)) <-> demands m ty \/ ty = XtImmutableOwner.
(** No extension type occurs twice (true of everything the token programs write). *)
Definition mint_ext_kind (x : mint_ext) : N :=
  match x with
  | MxTransferFee _ => 1 | MxMintCloseAuthority _ => 3 | MxConfidentialTransferMint _ _ _ => 4
  | MxDefaultAccountState _ => 6 | MxNonTransferable => 9 | MxPermanentDelegate _ => 12 | MxTransferHook _ _ => 14
  | MxMetadataPointer _ _ => 18 | MxTokenMetadata _ => 19 | MxConfidentialMintBurn => 24 | MxPausable _ _ => 26
  | MxOther ty _ _ _ => 1000 + ty
  end.
Definition distinct_mint_exts (m : mint) : Prop := NoDup (map mint_ext_kind (m_exts m)).
Definition distinct_acct_exts (t : tokacc) : Prop := NoDup (map acct_ext_type_of (t_exts t)).
(** The addresses CloseStuckEscrow derives exist. *)
Definition close_addresses_exist (e : env) (u wtp : pubkey) : Prop :=
  derivable e (wrapped_mint_seeds u wtp) tw_id /\
  derivable e (wrapped_mint_authority_seeds (wrapped_mint_of e u wtp)) tw_id /\
  derivable e (ata_seeds (authority_of e (wrapped_mint_of e u wtp)) u t22_id) ata_id.

(** ** Metadata sources that must be refused.  [src], [op]: the optional source metadata account
    and its owner program, as passed to the sync instructions. *)
Inductive metaplex_source_error (e : env) (l : ledger) (u : pubkey) : option pubkey -> error -> Prop :=
| mse_missing : metaplex_source_error e l u None ENotEnoughAccountKeys
| mse_owner k : a_owner (l k) <> mpl_id -> metaplex_source_error e l u (Some k) EInvalidAccountOwner
| mse_underivable k : a_owner (l k) = mpl_id -> ~ derivable e (metaplex_seeds u) mpl_id -> metaplex_source_error e l u (Some k) EPanic
| mse_address k : a_owner (l k) = mpl_id -> derivable e (metaplex_seeds u) mpl_id -> k <> metaplex_of e u ->
    metaplex_source_error e l u (Some k) (ETw MetaplexMetadataMismatch)
| mse_data : derivable e (metaplex_seeds u) mpl_id -> a_owner (l (metaplex_of e u)) = mpl_id ->
    (forall x, a_data (l (metaplex_of e u)) <> DMpl x) ->
    metaplex_source_error e l u (Some (metaplex_of e u)) EInvalidAccountData.
Inductive unreadable_mint : data -> error -> Prop :=
| um_blank m : m_init m = false -> unreadable_mint (DMint m) EUninitializedAccount
| um_zeros bs : Forall (eq 0) bs -> (82 <= length bs)%nat -> unreadable_mint (DRaw bs) EUninitializedAccount
| um_bytes bs : ~ (Forall (eq 0) bs /\ (82 <= length bs)%nat) -> unreadable_mint (DRaw bs) EInvalidAccountData
| um_other d : (forall m, d <> DMint m) -> (forall bs, d <> DRaw bs) -> unreadable_mint d EInvalidAccountData.
Inductive source_error (e : env) (l : ledger) (u : pubkey) : option pubkey -> option pubkey -> error -> Prop :=
| se_not_a_token src op : a_owner (l u) <> spl_token_id -> a_owner (l u) <> t22_id -> source_error e l u src op EIncorrectProgramId
| se_spl src op err : a_owner (l u) = spl_token_id -> metaplex_source_error e l u src err -> source_error e l u src op err
| se_plain m src op err : mint_account l u t22_id m -> no_pointer m -> metaplex_source_error e l u src err -> source_error e l u src op err
| se_unset m src op : mint_account l u t22_id m -> pointer_of m None -> source_error e l u src op (ETw MetadataPointerUnset)
| se_self m src op : mint_account l u t22_id m -> pointer_of m (Some u) -> (forall t, ~ own_metadata m t) ->
    source_error e l u src op (ETok ExtensionNotFound)
| se_missing m a op : mint_account l u t22_id m -> pointer_of m (Some a) -> a <> u -> source_error e l u None op ENotEnoughAccountKeys
| se_mismatch m a k op : mint_account l u t22_id m -> pointer_of m (Some a) -> a <> u -> k <> a ->
    source_error e l u (Some k) op (ETw MetadataPointerMismatch)
| se_token_2022 m a op : mint_account l u t22_id m -> pointer_of m (Some a) -> a <> u -> a_owner (l a) = t22_id ->
    source_error e l u (Some a) op EInvalidAccountData
| se_metaplex m a op : mint_account l u t22_id m -> pointer_of m (Some a) -> a <> u -> a_owner (l a) = mpl_id ->
    (forall x, a_data (l a) <> DMpl x) -> source_error e l u (Some a) op EInvalidAccountData
| se_no_owner_program m a : mint_account l u t22_id m -> pointer_of m (Some a) -> a <> u ->
    a_owner (l a) <> t22_id -> a_owner (l a) <> mpl_id -> source_error e l u (Some a) None ENotEnoughAccountKeys
| se_wrong_owner_program m a p : mint_account l u t22_id m -> pointer_of m (Some a) -> a <> u ->
    a_owner (l a) <> t22_id -> a_owner (l a) <> mpl_id -> p <> a_owner (l a) -> source_error e l u (Some a) (Some p) EInvalidAccountOwner
| se_foreign m a err : mint_account l u t22_id m -> pointer_of m (Some a) -> a <> u ->
    a_owner (l a) <> t22_id -> a_owner (l a) <> mpl_id ->
    (e_emit e (a_owner (l a)) a (l a) = Err err \/                                     (* the call failed *)
     e_emit e (a_owner (l a)) a (l a) = Ok (Some (a_owner (l a), Err err)) \/           (* undecodable answer *)
     ((e_emit e (a_owner (l a)) a (l a) = Ok None \/                                    (* no answer, or somebody else's *)
       exists p r, e_emit e (a_owner (l a)) a (l a) = Ok (Some (p, r)) /\ p <> a_owner (l a)) /\
      err = ETw ExternalProgramReturnedNoData)) ->
    source_error e l u (Some a) (Some (a_owner (l a))) err
| se_unreadable src op err : a_owner (l u) = t22_id -> unreadable_mint (a_data (l u)) err -> source_error e l u src op err.

(** ** Metaplex conversion *)

(** Decimal numerals as Rust parses them: an optional plus sign, at least one digit. *)
Definition digits (ds : list N) : Prop := ds <> [] /\ Forall (fun d => d < 10) ds.
Definition digits_string (ds : list N) : string := string_of_list_ascii (map (fun d => ascii_of_N (48 + d)) ds).
Definition digits_value (ds : list N) : N := fold_left (fun a d => a * 10 + d) ds 0.
Definition numeral_u16 (s : string) (n : N) : Prop :=
  exists ds, digits ds /\ (s = digits_string ds \/ s = String "+" (digits_string ds)) /\ n = digits_value ds /\ n < 2 ^ 16.
Definition unverified_copy (c c' : creator) : Prop :=
  cr_address c' = cr_address c /\ cr_share c' = cr_share c /\ cr_verified c' = false.
(** The JSON library reads back what it writes (for the values stored in [x]). *)
Definition json_round_trips (e : env) (x : mpl_metadata) : Prop :=
  (forall cs cs', mx_creators x = Some cs -> Forall2 unverified_copy cs cs' -> e_parse_creators e (e_json_creators e cs') = Some cs') /\
  (forall c, mx_collection x = Some c -> e_parse_collection e (e_json_collection e c) = Some c) /\
  (forall c, mx_uses x = Some c -> e_parse_uses e (e_json_uses e c) = Some c).
(** A field the conversion cannot read. *)
Definition malformed (e : env) (k v : string) : Prop :=
  (k = "creators"%string /\ e_parse_creators e v = None) \/
  (k = "seller_fee_basis_points"%string /\ forall n, ~ numeral_u16 v n) \/
  (k = "collection"%string /\ e_parse_collection e v = None) \/
  (k = "uses"%string /\ e_parse_uses e v = None).
Definition absent (fields : list (string * string)) (k : string) : Prop := ~ In k (map fst fields).

(** ** Metadata sync *)

(** The extensions of a mint other than its metadata. *)
Definition other_extensions (m : mint) : list mint_ext := filter (fun x => negb (mint_ext_kind x =? 19)) (m_exts m).
Definition same_core (m m' : mint) : Prop :=
  m_auth m' = m_auth m /\ m_supply m' = m_supply m /\ m_decimals m' = m_decimals m /\ m_freeze m' = m_freeze m /\
  other_extensions m' = other_extensions m.
(** The account is as large as its extensions need (the token program keeps it so). *)
Definition tight (m : mint) : Prop := m_len m = mint_space (m_exts m).
Definition sync_addresses_exist (e : env) (u wtp : pubkey) : Prop :=
  derivable e (wrapped_mint_seeds u wtp) tw_id /\
  derivable e (wrapped_mint_authority_seeds (wrapped_mint_of e u wtp)) tw_id.

(** Token metadata [t] converted to Metaplex [d]: strings verbatim, the recognised additional
    fields read (last occurrence wins), creators unverified. *)
Definition converted (e : env) (t : token_metadata) (d : data_v2) : Prop :=
  d2_name d = tm_name t /\ d2_symbol d = tm_symbol t /\ d2_uri d = tm_uri t /\
  (absent (tm_additional t) "seller_fee_basis_points" -> d2_sfbp d = 0) /\
  (forall v, field_value (tm_additional t) "seller_fee_basis_points" v -> numeral_u16 v (d2_sfbp d)) /\
  (absent (tm_additional t) "creators" -> d2_creators d = None) /\
  (forall v, field_value (tm_additional t) "creators" v ->
     exists cs cs', e_parse_creators e v = Some cs /\ d2_creators d = Some cs' /\ Forall2 unverified_copy cs cs') /\
  (absent (tm_additional t) "collection" -> d2_collection d = None) /\
  (forall v, field_value (tm_additional t) "collection" v -> exists x, e_parse_collection e v = Some x /\ d2_collection d = Some x) /\
  (absent (tm_additional t) "uses" -> d2_uses d = None) /\
  (forall v, field_value (tm_additional t) "uses" v -> exists x, e_parse_uses e v = Some x /\ d2_uses d = Some x).
(** Metaplex pads strings with NULs up to their maximum length. *)
Definition padded (max : nat) (s s' : string) : Prop :=
  exists z, s' = (s ++ string_of_list_ascii (repeat zero z))%string /\ z = (max - String.length s)%nat.
(** Metaplex metadata [x] shows the data [d]. *)
Definition shows (x : mpl_metadata) (d : data_v2) : Prop :=
  padded 32 (d2_name d) (mx_name x) /\ padded 10 (d2_symbol d) (mx_symbol x) /\ padded 200 (d2_uri d) (mx_uri x) /\
  mx_sfbp x = d2_sfbp d /\ mx_creators x = d2_creators d /\ mx_collection x = d2_collection d /\ mx_uses x = d2_uses d.
(** Everything in a Metaplex account that a data update leaves alone. *)
Definition same_metaplex_frame (x x' : mpl_metadata) : Prop :=
  mx_key x' = mx_key x /\ mx_update_authority x' = mx_update_authority x /\ mx_mint x' = mx_mint x /\
  mx_primary_sale x' = mx_primary_sale x /\ mx_is_mutable x' = mx_is_mutable x /\ mx_edition_nonce x' = mx_edition_nonce x /\
  mx_token_standard x' = mx_token_standard x /\ mx_collection_details x' = mx_collection_details x /\
  mx_programmable_config x' = mx_programmable_config x.
Definition no_verified_creator (x : mpl_metadata) : Prop :=
  forall cs c, mx_creators x = Some cs -> In c cs -> cr_verified c = false.
(** Metaplex accepts the data: its own limits, and a collection may only be marked verified if it
    already was. *)
Definition metaplex_accepts (e : env) (old : option collection) (d : data_v2) : Prop :=
  e_mpl_valid e d = true /\
  forall c, d2_collection d = Some c -> co_verified c = true -> old = Some c.

(** ** Which accounts an instruction may change *)

(** Programs whose accounts token-wrap changes: itself, the token programs, Metaplex. *)
Definition involved_program (p : pubkey) : Prop := p = tw_id \/ p = spl_token_id \/ p = t22_id \/ p = mpl_id.
(** An address token-wrap creates accounts at. *)
Definition created_address (e : env) (k : pubkey) : Prop :=
  (exists u p, k = wrapped_mint_of e u p) \/ (exists w, k = backpointer_of e w) \/
  (exists u, k = canonical_pointer_of e u) \/ (exists m, k = metaplex_of e m).
Definition same_data_and_owner (l l' : ledger) (k : pubkey) : Prop :=
  a_data (l' k) = a_data (l k) /\ a_owner (l' k) = a_owner (l k).
(** Lamports on a list of accounts. *)
Definition total_lamports (ks : list pubkey) (l : ledger) : N := fold_right (fun k acc => lamports l k + acc) 0 ks.
(** Running the official deployment on arbitrary instruction bytes. *)
Definition runs (e : env) (accounts : list info) (input : list N) (l l' : ledger) : Prop :=
  process_instruction e (mkCtx tw_id accounts) input l = Ok l'.
(** A transaction's instructions all succeed, one after the other. *)
Inductive all_succeed : list (env * list info * list N) -> ledger -> ledger -> Prop :=
| as_nil l : all_succeed [] l l
| as_cons e accounts input r l l1 l2 : runs e accounts input l l1 -> all_succeed r l1 l2 -> all_succeed ((e, accounts, input) :: r) l l2.
