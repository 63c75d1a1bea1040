(** * State.v — account data, ledger, environment oracles. *)
From Verif Require Import Base.

(** ** Token metadata (external crate spl_token_metadata_interface::state). Strings are
    byte strings. *)
Record token_metadata := mkTM {
  tm_update_authority : option pubkey;
  tm_mint : pubkey;
  tm_name : string;
  tm_symbol : string;
  tm_uri : string;
  tm_additional : list (string * string) }.

Inductive field := FName | FSymbol | FUri | FKey (k : string).

(** ** Mint extensions (external crate spl_token_2022_interface::extension). *)
Record transfer_fee := mkFee { tf_epoch : N; tf_max : N; tf_bps : N }.
Record fee_config := mkFeeConfig {
  fc_authority : option pubkey;
  fc_withdraw_authority : option pubkey;
  fc_withheld : N;
  fc_older : transfer_fee;
  fc_newer : transfer_fee }.

Inductive acct_state := Uninitialized | Initialized | Frozen.
Definition acct_state_eqb (a b : acct_state) : bool :=
  match a, b with
  | Uninitialized, Uninitialized | Initialized, Initialized | Frozen, Frozen => true
  | _, _ => false
  end.

Inductive mint_ext :=
| MxTransferFee (c : fee_config)
| MxMintCloseAuthority (a : option pubkey)
| MxConfidentialTransferMint (authority : option pubkey) (auto_approve : bool) (auditor : option N)
| MxDefaultAccountState (s : acct_state)
| MxNonTransferable
| MxPermanentDelegate (d : option pubkey)
| MxTransferHook (authority : option pubkey) (program : option pubkey)
| MxMetadataPointer (authority : option pubkey) (address : option pubkey)
| MxTokenMetadata (m : token_metadata)
| MxPausable (authority : option pubkey) (paused : bool)
| MxConfidentialMintBurn
| MxOther (ty : N) (len : N) (authority : option pubkey) (payload : N).

(** [ExtensionType] discriminants of account extensions. *)
Inductive acct_ext :=
| AxTransferFeeAmount (withheld : N)
| AxConfidentialTransferAccount (payload : N)
| AxImmutableOwner
| AxMemoTransfer (required : bool)
| AxNonTransferableAccount
| AxCpiGuard (locked : bool)
| AxTransferHookAccount
| AxPausableAccount
| AxOther (ty : N) (len : N) (payload : N).

Inductive acct_ext_type :=
| XtTransferFeeAmount | XtConfidentialTransferAccount | XtImmutableOwner | XtMemoTransfer
| XtNonTransferableAccount | XtCpiGuard | XtTransferHookAccount | XtPausableAccount
| XtOther (ty : N).

Definition acct_ext_type_of (e : acct_ext) : acct_ext_type :=
  match e with
  | AxTransferFeeAmount _ => XtTransferFeeAmount
  | AxConfidentialTransferAccount _ => XtConfidentialTransferAccount
  | AxImmutableOwner => XtImmutableOwner
  | AxMemoTransfer _ => XtMemoTransfer
  | AxNonTransferableAccount => XtNonTransferableAccount
  | AxCpiGuard _ => XtCpiGuard
  | AxTransferHookAccount => XtTransferHookAccount
  | AxPausableAccount => XtPausableAccount
  | AxOther ty _ _ => XtOther ty
  end.

Definition acct_ext_type_eqb (a b : acct_ext_type) : bool :=
  match a, b with
  | XtTransferFeeAmount, XtTransferFeeAmount
  | XtConfidentialTransferAccount, XtConfidentialTransferAccount
  | XtImmutableOwner, XtImmutableOwner
  | XtMemoTransfer, XtMemoTransfer
  | XtNonTransferableAccount, XtNonTransferableAccount
  | XtCpiGuard, XtCpiGuard
  | XtTransferHookAccount, XtTransferHookAccount
  | XtPausableAccount, XtPausableAccount => true
  | XtOther x, XtOther y => x =? y
  | _, _ => false
  end.
Lemma acct_ext_type_eqb_eq a b : acct_ext_type_eqb a b = true <-> a = b.
Proof.
  destruct a, b; simpl; try rewrite N.eqb_eq; split; intro H; try congruence; try discriminate; auto.
Qed.

(** ** Base states (spl_token::state / spl_token_2022_interface::pod). *)
Record mint := mkMint {
  m_auth : option pubkey;
  m_supply : N;
  m_decimals : N;
  m_init : bool;
  m_freeze : option pubkey;
  m_exts : list mint_ext;
  m_len : N }.             (* length of the account data *)

Record tokacc := mkTok {
  t_mint : pubkey;
  t_owner : pubkey;
  t_amount : N;
  t_delegate : option pubkey;
  t_delegated : N;
  t_state : acct_state;
  t_native : option N;
  t_close : option pubkey;
  t_exts : list acct_ext }.

Record multisig := mkMultisig { ms_m : N; ms_signers : list pubkey }.

(** ** Metaplex (mpl_token_metadata::accounts::Metadata and types). *)
Record creator := mkCreator { cr_address : pubkey; cr_verified : bool; cr_share : N }.
Record collection := mkCollection { co_verified : bool; co_key : pubkey }.
Record uses := mkUses { us_method : N; us_remaining : N; us_total : N }.
Record mpl_metadata := mkMpl {
  mx_key : N;                      (* enum Key *)
  mx_update_authority : pubkey;
  mx_mint : pubkey;
  mx_name : string;
  mx_symbol : string;
  mx_uri : string;
  mx_sfbp : N;                     (* u16 *)
  mx_creators : option (list creator);
  mx_primary_sale : bool;
  mx_is_mutable : bool;
  mx_edition_nonce : option N;     (* u8 *)
  mx_token_standard : option N;
  mx_collection : option collection;
  mx_uses : option uses;
  mx_collection_details : option N;
  mx_programmable_config : option N }.
Record data_v2 := mkDataV2 {
  d2_name : string;
  d2_symbol : string;
  d2_uri : string;
  d2_sfbp : N;
  d2_creators : option (list creator);
  d2_collection : option collection;
  d2_uses : option uses }.

(** ** Account data.  Any variant may sit under any owner. *)
Inductive data :=
| DRaw (l : list N)
| DKey (k : pubkey)          (* state.rs: Backpointer / CanonicalDeploymentPointer, 32 bytes *)
| DMint (m : mint)
| DTok (t : tokacc)
| DMultisig (m : multisig)
| DMpl (m : mpl_metadata).

Definition DEmpty : data := DRaw [].
Definition zeros (n : N) : list N := repeat 0 (N.to_nat n).

(** Sizes (external crates): spl_token::state::{Mint,Account,Multisig}::LEN. *)
Definition mint_base_len : N := 82.
Definition tok_base_len : N := 165.
Definition multisig_len : N := 355.

Definition str_len (s : string) : N := N.of_nat (String.length s).

(** Borsh size of [TokenMetadata]. *)
Definition tm_len (m : token_metadata) : N :=
  64 + (4 + str_len (tm_name m)) + (4 + str_len (tm_symbol m)) + (4 + str_len (tm_uri m)) + 4 +
  fold_right (fun kv acc => 8 + str_len (fst kv) + str_len (snd kv) + acc) 0 (tm_additional m).

(** [ExtensionType::try_get_type_len]; TokenMetadata is variable. *)
Definition mint_ext_len (e : mint_ext) : N :=
  match e with
  | MxTransferFee _ => 108
  | MxMintCloseAuthority _ => 32
  | MxConfidentialTransferMint _ _ _ => 65
  | MxDefaultAccountState _ => 1
  | MxNonTransferable => 0
  | MxPermanentDelegate _ => 32
  | MxTransferHook _ _ => 64
  | MxMetadataPointer _ _ => 64
  | MxTokenMetadata m => tm_len m
  | MxPausable _ _ => 33
  | MxConfidentialMintBurn => 196
  | MxOther _ len _ _ => len
  end.
Definition acct_ext_len (e : acct_ext) : N :=
  match e with
  | AxTransferFeeAmount _ => 8
  | AxConfidentialTransferAccount _ => 295
  | AxImmutableOwner => 0
  | AxMemoTransfer _ => 1
  | AxNonTransferableAccount => 0
  | AxCpiGuard _ => 1
  | AxTransferHookAccount => 1
  | AxPausableAccount => 0
  | AxOther _ len _ => len
  end.

(** [ExtensionType::try_calculate_account_len]: base padded to 165, account type byte,
    TLV entries, 2 extra bytes if the result would equal Multisig::LEN. *)
Definition adjust_multisig (n : N) : N := if n =? multisig_len then n + 2 else n.
Definition tlv_total (lens : list N) : N := fold_right (fun x acc => 4 + x + acc) 0 lens.
Definition mint_space (exts : list mint_ext) : N :=
  match exts with
  | [] => mint_base_len
  | _ => adjust_multisig (166 + tlv_total (map mint_ext_len exts))
  end.
Definition tok_space (exts : list acct_ext) : N :=
  match exts with
  | [] => tok_base_len
  | _ => adjust_multisig (166 + tlv_total (map acct_ext_len exts))
  end.

Definition data_len (d : data) : N :=
  match d with
  | DRaw l => N.of_nat (length l)
  | DKey _ => 32
  | DMint m => m_len m
  | DTok t => tok_space (t_exts t)
  | DMultisig _ => multisig_len
  | DMpl _ => 607
  end.
Definition data_is_empty (d : data) : bool := data_len d =? 0.

(** ** Ledger *)
Record account := mkAcc { a_lamports : N; a_data : data; a_owner : pubkey }.
Definition ledger := pubkey -> account.
Definition empty_account : account := mkAcc 0 DEmpty system_id.

Definition upd (l : ledger) (k : pubkey) (a : account) : ledger :=
  fun k' => if pk_eqb k k' then a else l k'.
Definition with_data (d : data) (a : account) : account := mkAcc (a_lamports a) d (a_owner a).
Definition with_owner (o : pubkey) (a : account) : account := mkAcc (a_lamports a) (a_data a) o.
Definition with_lamports (n : N) (a : account) : account := mkAcc n (a_data a) (a_owner a).

Lemma upd_same l k a : upd l k a k = a.
Proof. unfold upd; rewrite pk_eqb_refl; reflexivity. Qed.
Lemma upd_other l k a k' : k <> k' -> upd l k a k' = l k'.
Proof. intro H; unfold upd; apply pk_eqb_neq in H; rewrite H; reflexivity. Qed.

(** ** Extension lookup ([get_extension::<V>()] returns the first TLV entry of the type). *)
Fixpoint find_map {A B} (f : A -> option B) (l : list A) : option B :=
  match l with
  | [] => None
  | a :: r => match f a with Some b => Some b | None => find_map f r end
  end.

Definition ext_fee (m : mint) : option fee_config :=
  find_map (fun e => match e with MxTransferFee c => Some c | _ => None end) (m_exts m).
Definition ext_pointer (m : mint) : option (option pubkey * option pubkey) :=
  find_map (fun e => match e with MxMetadataPointer a b => Some (a, b) | _ => None end) (m_exts m).
Definition ext_metadata (m : mint) : option token_metadata :=
  find_map (fun e => match e with MxTokenMetadata t => Some t | _ => None end) (m_exts m).
Definition ext_permanent_delegate (m : mint) : option pubkey :=
  match find_map (fun e => match e with MxPermanentDelegate d => Some d | _ => None end) (m_exts m) with
  | Some (Some d) => Some d
  | _ => None
  end.
Definition ext_hook (m : mint) : option pubkey :=
  match find_map (fun e => match e with MxTransferHook _ p => Some p | _ => None end) (m_exts m) with
  | Some (Some p) => Some p
  | _ => None
  end.
Definition ext_paused (m : mint) : bool :=
  match find_map (fun e => match e with MxPausable _ b => Some b | _ => None end) (m_exts m) with
  | Some b => b
  | None => false
  end.
Definition ext_close_authority (m : mint) : option pubkey :=
  match find_map (fun e => match e with MxMintCloseAuthority a => Some a | _ => None end) (m_exts m) with
  | Some (Some a) => Some a
  | _ => None
  end.
Definition ext_default_state (m : mint) : acct_state :=
  match find_map (fun e => match e with MxDefaultAccountState s => Some s | _ => None end) (m_exts m) with
  | Some s => s
  | None => Initialized
  end.
Definition ext_nontransferable (m : mint) : bool :=
  existsb (fun e => match e with MxNonTransferable => true | _ => false end) (m_exts m).
Definition ext_conf_mint_burn (m : mint) : bool :=
  existsb (fun e => match e with MxConfidentialMintBurn => true | _ => false end) (m_exts m).

Definition has_acct_ext (ty : acct_ext_type) (t : tokacc) : bool :=
  existsb (fun e => acct_ext_type_eqb ty (acct_ext_type_of e)) (t_exts t).
Definition cpi_guard_locked (t : tokacc) : bool :=
  existsb (fun e => match e with AxCpiGuard b => b | _ => false end) (t_exts t).
Definition memo_required (t : tokacc) : bool :=
  existsb (fun e => match e with AxMemoTransfer b => b | _ => false end) (t_exts t).

(** ** Environment oracles.  Theorems quantify over every [env]. *)
Record env := mkEnv {
  e_off_curve : list atom -> pubkey -> bool;    (* is the hash of this preimage off the ed25519 curve? *)
  e_rent : N -> N;                              (* Rent::get()?.minimum_balance *)
  e_epoch : N;                                  (* Clock::get()?.epoch *)
  e_memo : bool;                                (* is the previous sibling instruction a memo? *)
  e_hook : pubkey -> list info -> N -> ledger -> res ledger;   (* transfer hook execution *)
  e_extra : ledger -> list info -> list info -> res (list info);  (* accounts the onchain transfer helpers append *)
  e_multisig : ledger -> pubkey -> list info -> res (list pubkey);   (* extract_multisig_accounts *)
  e_external : pubkey -> ledger -> list info -> res ledger;   (* any other program *)
  e_emit : pubkey -> pubkey -> account -> res (option (pubkey * res token_metadata)); (* Emit CPI: program, account, its contents; return data *)
  e_realloc_ok : N -> N -> bool;                (* realloc old_len new_len permitted *)
  e_rank : string -> N;                         (* hash-map iteration order *)
  e_key_of_bytes : list N -> pubkey;            (* naming of 32-byte strings *)
  e_mpl_valid : data_v2 -> bool;                (* Metaplex size/share validation *)
  e_mpl_cost : N;                               (* lamports charged for a new Metaplex account *)
  e_mpl_nonce : option N;                       (* edition nonce stored by Metaplex *)
  e_json_key : N -> string;                     (* serde_json::to_string of enum values *)
  e_json_token_standard : N -> string;
  e_json_creators : list creator -> string;
  e_json_collection : collection -> string;
  e_json_uses : uses -> string;
  e_json_collection_details : N -> string;
  e_json_programmable_config : N -> string;
  e_parse_creators : string -> option (list creator);   (* serde_json::from_str *)
  e_parse_collection : string -> option collection;
  e_parse_uses : string -> option uses }.
