(** * Cpi.v — system program, Metaplex, cross-program invocation (Solana runtime). *)
From Verif Require Import Base Codec State Pda TokenProg.

(** ** System program (external): Allocate and Assign. *)
Inductive sys_ix :=
| SiAllocate (space : N)
| SiAssign (owner : pubkey).

Definition sys_exec (ms : list info) (ix : sys_ix) (l : ledger) : res ledger :=
  match ix, map i_key ms with
  | SiAllocate space, k :: _ =>
      guard (is_sig ms k) EMissingRequiredSignature ;;
      guard (data_is_empty (a_data (l k)) && pk_eqb (a_owner (l k)) system_id) (ERt AccountAlreadyInUse) ;;
      guard (space <=? 10485760) (ERt InvalidAccountDataLength) ;;
      guard (is_wr ms k) (ERt ReadonlyDataModified) ;;
      Ok (upd l k (with_data (DRaw (zeros space)) (l k)))
  | SiAssign owner, k :: _ =>
      if pk_eqb (a_owner (l k)) owner then Ok l
      else
        guard (is_sig ms k) EMissingRequiredSignature ;;
        guard (is_wr ms k && pk_eqb (a_owner (l k)) system_id
               && match a_data (l k) with DRaw r => all_zero r | _ => false end) (ERt ModifiedProgramId) ;;
        Ok (upd l k (with_owner owner (l k)))
  | _, _ => Err ENotEnoughAccountKeys
  end.

(** ** Metaplex Token Metadata (external): CreateMetadataAccountV3 and UpdateMetadataAccountV2. *)
Inductive mpl_ix :=
| PiCreateV3 (d : data_v2) (is_mutable : bool)
| PiUpdateV2 (d : data_v2).

(** puff_out_data_fields: strings are padded with NULs to their maximum length. *)
Fixpoint nuls (n : nat) : string := match n with O => EmptyString | S n' => String zero (nuls n') end.
Definition pad (max : nat) (s : string) : string := (s ++ nuls (max - String.length s))%string.

Definition verified_collection (d : data_v2) : bool :=
  match d2_collection d with Some c => co_verified c | None => false end.
Definition collection_eqb (a b : option collection) : bool :=
  match a, b with
  | Some x, Some y => Bool.eqb (co_verified x) (co_verified y) && pk_eqb (co_key x) (co_key y)
  | None, None => true
  | _, _ => false
  end.
(** Nobody can set a creator or collection to verified through these instructions (creator
    signatures are not passed); sizes and shares are checked by the oracle [e_mpl_valid]. *)
Definition mpl_data_ok (e : env) (old : option collection) (d : data_v2) : bool :=
  e_mpl_valid e d
  && forallb (fun c => negb (cr_verified c)) (match d2_creators d with Some c => c | None => [] end)
  && (negb (verified_collection d) || collection_eqb old (d2_collection d)).

Definition mpl_apply (d : data_v2) (m : mpl_metadata) : mpl_metadata :=
  mkMpl (mx_key m) (mx_update_authority m) (mx_mint m) (pad 32 (d2_name d)) (pad 10 (d2_symbol d)) (pad 200 (d2_uri d))
        (d2_sfbp d) (d2_creators d) (mx_primary_sale m) (mx_is_mutable m) (mx_edition_nonce m)
        (mx_token_standard m) (d2_collection d) (d2_uses d) (mx_collection_details m) (mx_programmable_config m).

Definition mpl_exec (e : env) (ms : list info) (ix : mpl_ix) (l : ledger) : res ledger :=
  match ix, map i_key ms with
  | PiCreateV3 d mut, md :: mnt :: ma :: payer :: ua :: _ =>
      guard (pk_eqb md (metaplex_of e mnt)) (EMpl 1) ;;
      guard (data_is_empty (a_data (l md)) && pk_eqb (a_owner (l md)) system_id) (EMpl 2) ;;
      guard (pk_eqb (a_owner (l mnt)) spl_token_id || pk_eqb (a_owner (l mnt)) t22_id) (EMpl 3) ;;
      m <- pod_unpack_mint (a_data (l mnt)) ;;
      guard (opk_eqb (m_auth m) (Some ma) && is_sig ms ma) (EMpl 4) ;;
      guard (is_sig ms payer && is_sig ms ua) EMissingRequiredSignature ;;
      guard (mpl_data_ok e None d) (EMpl 5) ;;
      guard (is_wr ms md && is_wr ms payer) (ERt ReadonlyLamportChange) ;;
      guard (pk_eqb (a_owner (l payer)) system_id && data_is_empty (a_data (l payer))) (ERt ExternalAccountLamportSpend) ;;
      guard (e_mpl_cost e <=? a_lamports (l payer)) (ERt InsufficientLamports) ;;
      guard (negb (pk_eqb payer md)) (EMpl 6) ;;
      let l1 := upd l payer (with_lamports (a_lamports (l payer) - e_mpl_cost e) (l payer)) in
      let fresh := mkMpl 4 ua mnt EmptyString EmptyString EmptyString 0 None false mut (e_mpl_nonce e)
                         (Some (if m_decimals m =? 0 then 1 else 2)) None None None None in
      Ok (upd l1 md (mkAcc (a_lamports (l1 md) + e_mpl_cost e) (DMpl (mpl_apply d fresh)) mpl_id))
  | PiUpdateV2 d, md :: ua :: _ =>
      guard (pk_eqb (a_owner (l md)) mpl_id) EIncorrectProgramId ;;
      match a_data (l md) with
      | DMpl m =>
          guard (is_sig ms ua) EMissingRequiredSignature ;;
          guard (pk_eqb (mx_update_authority m) ua) (EMpl 7) ;;
          guard (mx_is_mutable m) (EMpl 8) ;;
          guard (mpl_data_ok e (mx_collection m) d) (EMpl 5) ;;
          set_data mpl_id ms md (DMpl (mpl_apply d m)) l
      | _ => Err EInvalidAccountData
      end
  | _, _ => Err ENotEnoughAccountKeys
  end.

(** ** Instructions sent by CPI *)
Inductive ix_data :=
| IxSys (i : sys_ix)
| IxTok (i : tok_ix)
| IxMpl (i : mpl_ix).
Record instruction := mkIx { ix_prog : pubkey; ix_metas : list info; ix_body : ix_data }.

(** An unknown program does whatever it wants ([e_external]) to the writable accounts it gets;
    the runtime confines it to accounts it owns. *)
Definition external_exec (e : env) (prog : pubkey) (ms : list info) (l : ledger) : res ledger :=
  l' <- e_external e prog l ms ;;
  let l2 := confine ms (fun k => pk_eqb (a_owner (l k)) prog) l l' in
  guard (balanced ms l l2) (ERt UnbalancedInstruction) ;; Ok l2.

Definition exec_program (e : env) (prog : pubkey) (ms : list info) (b : ix_data) (l : ledger) : res ledger :=
  if pk_eqb prog system_id then
    match b with IxSys i => sys_exec ms i l | _ => Err EInvalidInstructionData end
  else if pk_eqb prog spl_token_id || pk_eqb prog t22_id then
    match b with IxTok i => tok_exec e prog true ms i l | _ => Err EInvalidInstructionData end
  else if pk_eqb prog mpl_id then
    match b with IxMpl i => mpl_exec e ms i l | _ => Err EInvalidInstructionData end
  else external_exec e prog ms l.

(** The calling instruction: executing program and the accounts it was given. *)
Record ctx := mkCtx { c_prog : pubkey; c_infos : list info }.

Fixpoint map_res {A B} (f : A -> res B) (l : list A) : res (list B) :=
  match l with
  | [] => Ok []
  | a :: r => b <- f a ;; bs <- map_res f r ;; Ok (b :: bs)
  end.

(** [solana_cpi::invoke_signed] followed by the runtime's checks.
    [borrowed]: accounts whose data the caller holds an immutable borrow of; they cannot be
    writable in the callee.  [passed]: keys of the AccountInfos handed over.
    Signer privilege comes from the caller's own accounts or from PDA seeds of the caller. *)
Definition invoke_signed (e : env) (c : ctx) (borrowed : list pubkey) (ix : instruction) (passed : list pubkey)
    (seeds : list (list atom)) (l : ledger) : res ledger :=
  guard (forallb (fun m => negb (i_writable m && pk_mem (i_key m) borrowed && pk_mem (i_key m) passed)) (ix_metas ix))
        EAccountBorrowFailed ;;
  pdas <- map_res (fun s => create_program_address e s (c_prog c)) seeds ;;
  guard (has_key (c_infos c) (ix_prog ix)) (ERt MissingAccount) ;;
  guard (forallb (fun m => pk_mem (i_key m) passed && has_key (c_infos c) (i_key m)) (ix_metas ix)) (ERt MissingAccount) ;;
  guard (forallb (fun m => negb (i_writable m) || is_wr (c_infos c) (i_key m)) (ix_metas ix)) (ERt PrivilegeEscalation) ;;
  guard (forallb (fun m => negb (i_signer m) || is_sig (c_infos c) (i_key m) || pk_mem (i_key m) pdas) (ix_metas ix))
        (ERt PrivilegeEscalation) ;;
  exec_program e (ix_prog ix) (ix_metas ix) (ix_body ix) l.
(** [solana_cpi::invoke]. *)
Definition invoke (e : env) (c : ctx) (borrowed : list pubkey) (ix : instruction) (passed : list pubkey)
    (l : ledger) : res ledger :=
  invoke_signed e c borrowed ix passed [] l.

(** ** Instruction builders of the external crates *)
Definition meta_w (k : pubkey) (s : bool) : info := mkInfo k s true.   (* AccountMeta::new *)
Definition meta_r (k : pubkey) (s : bool) : info := mkInfo k s false.  (* AccountMeta::new_readonly *)

(** solana_system_interface::instruction::{allocate, assign} *)
Definition ix_allocate (k : pubkey) (space : N) : instruction :=
  mkIx system_id [meta_w k true] (IxSys (SiAllocate space)).
Definition ix_assign (k owner : pubkey) : instruction :=
  mkIx system_id [meta_w k true] (IxSys (SiAssign owner)).

(** check_spl_token_program_account / check_program_account of spl_token_2022_interface. *)
Definition check_spl_token_program_account (p : pubkey) : res unit :=
  guard (pk_eqb p spl_token_id || pk_eqb p t22_id) EIncorrectProgramId.
Definition check_t22_program_account (p : pubkey) : res unit :=
  guard (pk_eqb p t22_id) EIncorrectProgramId.

Definition ix_initialize_mint2 (p k auth : pubkey) (freeze : option pubkey) (dec : N) : res instruction :=
  check_spl_token_program_account p ;;
  Ok (mkIx p [meta_w k false] (IxTok (TiInitializeMint2 dec auth freeze))).
Definition ix_init_ext (p k : pubkey) (x : mint_ext) : res instruction :=
  check_t22_program_account p ;;
  Ok (mkIx p [meta_w k false] (IxTok (TiInitExt x))).
Definition ix_transfer_checked (p src mnt dst auth : pubkey) (signers : list pubkey) (amount dec : N) : res instruction :=
  check_spl_token_program_account p ;;
  Ok (mkIx p ([meta_w src false; meta_r mnt false; meta_w dst false; meta_r auth (is_nil signers)]
              ++ map (fun k => meta_r k true) signers)
           (IxTok (TiTransferChecked amount dec))).
Definition ix_transfer_checked_with_fee (p src mnt dst auth : pubkey) (signers : list pubkey) (amount dec fee : N) : res instruction :=
  check_t22_program_account p ;;
  Ok (mkIx p ([meta_w src false; meta_r mnt false; meta_w dst false; meta_r auth (is_nil signers)]
              ++ map (fun k => meta_r k true) signers)
           (IxTok (TiTransferCheckedWithFee amount dec fee))).
Definition ix_mint_to (p mnt dst auth : pubkey) (signers : list pubkey) (amount : N) : res instruction :=
  check_spl_token_program_account p ;;
  Ok (mkIx p ([meta_w mnt false; meta_w dst false; meta_r auth (is_nil signers)]
              ++ map (fun k => meta_r k true) signers)
           (IxTok (TiMintTo amount))).
Definition ix_burn (p src mnt auth : pubkey) (signers : list pubkey) (amount : N) : res instruction :=
  check_spl_token_program_account p ;;
  Ok (mkIx p ([meta_w src false; meta_w mnt false; meta_r auth (is_nil signers)]
              ++ map (fun k => meta_r k true) signers)
           (IxTok (TiBurn amount))).
Definition ix_close_account (p acc dst auth : pubkey) (signers : list pubkey) : res instruction :=
  check_spl_token_program_account p ;;
  Ok (mkIx p ([meta_w acc false; meta_w dst false; meta_r auth (is_nil signers)]
              ++ map (fun k => meta_r k true) signers)
           (IxTok TiCloseAccount)).
(** spl_token_metadata_interface::instruction::{initialize, update_field, remove_key} *)
Definition ix_md_initialize (p md ua mnt ma : pubkey) (n s u : string) : instruction :=
  mkIx p [meta_w md false; meta_r ua false; meta_r mnt false; meta_r ma true] (IxTok (TiMdInitialize n s u)).
Definition ix_md_update_field (p md ua : pubkey) (f : field) (v : string) : instruction :=
  mkIx p [meta_w md false; meta_r ua true] (IxTok (TiMdUpdateField f v)).
Definition ix_md_remove_key (p md ua : pubkey) (k : string) (idem : bool) : instruction :=
  mkIx p [meta_w md false; meta_r ua true] (IxTok (TiMdRemoveKey k idem)).
(** mpl_token_metadata::instructions *)
Definition ix_mpl_create (md mnt ma payer ua sys rent : pubkey) (d : data_v2) (mut : bool) : instruction :=
  mkIx mpl_id [meta_w md false; meta_r mnt false; meta_r ma true; meta_w payer true; meta_r ua true;
               meta_r sys false; meta_r rent false] (IxMpl (PiCreateV3 d mut)).
Definition ix_mpl_update (md ua : pubkey) (d : data_v2) : instruction :=
  mkIx mpl_id [meta_w md false; meta_r ua true] (IxMpl (PiUpdateV2 d)).

(** The helpers of spl_token_2022::onchain: the instruction is built without multisig signers
    (so the authority is a signer meta), then extra accounts are appended ([e_extra]: multisig
    signers and transfer-hook accounts found among the additional accounts).
    When extra signers are appended for a multisig the authority's signer flag is dropped;
    the oracle's first argument list lets it decide; [auth_is_signer] below is the flag.
    SIMPLIFICATION: the flag is [true] unless the authority account is a multisig. *)
Definition auth_is_signer (l : ledger) (auth : pubkey) : bool :=
  match a_data (l auth) with DMultisig _ => false | _ => true end.
Definition transfer_metas (l : ledger) (src mnt dst auth : pubkey) (extra : list info) : list info :=
  [meta_w src false; meta_r mnt false; meta_w dst false; meta_r auth (auth_is_signer l auth)] ++ extra.
Definition invoke_transfer_checked (e : env) (c : ctx) (borrowed : list pubkey) (p src mnt dst auth : pubkey)
    (additional : list info) (amount dec : N) (seeds : list (list atom)) (l : ledger) : res ledger :=
  _ <- ix_transfer_checked p src mnt dst auth [] amount dec ;;
  extra <- e_extra e l (c_infos c) additional ;;
  let ms := transfer_metas l src mnt dst auth extra in
  invoke_signed e c borrowed (mkIx p ms (IxTok (TiTransferChecked amount dec)))
    ([src; mnt; dst; auth] ++ map i_key extra) seeds l.
Definition invoke_transfer_checked_with_fee (e : env) (c : ctx) (borrowed : list pubkey) (p src mnt dst auth : pubkey)
    (additional : list info) (amount dec fee : N) (seeds : list (list atom)) (l : ledger) : res ledger :=
  _ <- ix_transfer_checked_with_fee p src mnt dst auth [] amount dec fee ;;
  extra <- e_extra e l (c_infos c) additional ;;
  let ms := transfer_metas l src mnt dst auth extra in
  invoke_signed e c borrowed (mkIx p ms (IxTok (TiTransferCheckedWithFee amount dec fee)))
    ([src; mnt; dst; auth] ++ map i_key extra) seeds l.
