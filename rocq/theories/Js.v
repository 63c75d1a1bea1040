(** * Js.v — the JavaScript client (clients/js/src): the generated instruction builders and parsers, and the helpers
    that resolve addresses, build transactions and combine the signatures of a multisig.

    SIMPLIFICATIONS.  Promises resolve in one consistent state of the ledger; a thrown error is an error, its text is
    not modelled.  Amounts are integers (BigInt(amount) throws on fractions).  The limit on the size of a transaction is not
    modelled.  [createTokenAccount] (utilities.ts:41-74) and the examples are not modelled. *)
From Verif Require Import Base Codec State Pda TokenProg Cpi Ata Meta Processor Builders Cli.

(** ** @solana/kit (external) *)

(** [Address | TransactionSigner].  A signer may be a no-op signer ([sg_signs] = false): it is asked for, but does not sign. *)
Inductive js_account := JsSigner (s : signer) | JsAddress (k : pubkey).
Definition js_address (x : js_account) : pubkey := match x with JsSigner s => sg_key s | JsAddress k => k end.
Definition js_signers (x : js_account) : list signer := match x with JsSigner s => [s] | JsAddress _ => [] end.
(** getAccountMetaFactory(programAddress, 'programId'): an account left out becomes the program's address, read-only. *)
Definition js_meta (prog : pubkey) (v : option js_account) (isWritable : bool) : info :=
  match v with
  | None => mkInfo prog false false
  | Some (JsSigner s) => mkInfo (sg_key s) true isWritable
  | Some (JsAddress k) => mkInfo k false isWritable
  end.
(** [x ?? d] *)
Definition js_or {A} (x : option A) (d : A) : A := match x with Some y => y | None => d end.
Definition some_address (k : pubkey) : option js_account := Some (JsAddress k).
Definition opt_address (k : option pubkey) : option js_account := option_map JsAddress k.
(** getU8Encoder, getBooleanEncoder, getU64Encoder (throws out of range) *)
Definition js_bool (b : bool) : list N := [if b then 1 else 0].
Definition js_u64 (z : Z) : res (list N) :=
  guard ((0 <=? z)%Z && (z <? 2 ^ 64)%Z) EInvalidArgument ;; Ok (to_le 8 (Z.to_N z)).
(** getU8Decoder, getBooleanDecoder, getU64Decoder: what comes first is read, the rest is ignored. *)
Definition js_read_bool (d : list N) : res bool := match d with b :: _ => Ok (b =? 1) | [] => Err EInvalidArgument end.
Definition js_read_u64 (d : list N) : res N :=
  guard (8 <=? N.of_nat (length d)) EInvalidArgument ;; Ok (from_le (firstn 8 d)).

(** ** Generated instruction builders *)

(** generated/instructions/createMint.ts:35,75-83,125-197 *)
Definition js_create_mint (prog w b u wtp : pubkey) (sys : option pubkey) (idempotent : option bool) : tw_instruction :=
  mkTwIx prog
    [js_meta prog (some_address w) true; js_meta prog (some_address b) true; js_meta prog (some_address u) false;
     js_meta prog (some_address (js_or sys system_id)) false; js_meta prog (some_address wtp) false]
    (0 :: js_bool (js_or idempotent false)).
(** generated/instructions/wrap.ts:39,97-105,160-262 *)
Definition js_wrap (prog r w a utp wtp s u esc : pubkey) (ta : js_account) (amount : Z) (multi : list signer) : res tw_instruction :=
  d <- js_u64 amount ;;
  Ok (mkTwIx prog
    ([js_meta prog (some_address r) true; js_meta prog (some_address w) true; js_meta prog (some_address a) false;
      js_meta prog (some_address utp) false; js_meta prog (some_address wtp) false; js_meta prog (some_address s) true;
      js_meta prog (some_address u) false; js_meta prog (some_address esc) true; js_meta prog (Some ta) false] ++
     map (fun x => mkInfo (sg_key x) true false) multi)
    (1 :: d)).
(** generated/instructions/unwrap.ts:39,97-105,160-262 *)
Definition js_unwrap (prog esc r a u wtp utp s w : pubkey) (ta : js_account) (amount : Z) (multi : list signer) : res tw_instruction :=
  d <- js_u64 amount ;;
  Ok (mkTwIx prog
    ([js_meta prog (some_address esc) true; js_meta prog (some_address r) true; js_meta prog (some_address a) false;
      js_meta prog (some_address u) false; js_meta prog (some_address wtp) false; js_meta prog (some_address utp) false;
      js_meta prog (some_address s) true; js_meta prog (some_address w) true; js_meta prog (Some ta) false] ++
     map (fun x => mkInfo (sg_key x) true false) multi)
    (2 :: d)).
(** generated/instructions/closeStuckEscrow.ts:33,70-75,110-178 *)
Definition js_close_stuck_escrow (prog esc d u w a : pubkey) (t22 : option pubkey) : tw_instruction :=
  mkTwIx prog
    [js_meta prog (some_address esc) true; js_meta prog (some_address d) true; js_meta prog (some_address u) false;
     js_meta prog (some_address w) false; js_meta prog (some_address a) false; js_meta prog (some_address (js_or t22 t22_id)) false]
    [3].
(** generated/instructions/syncMetadataToToken2022.ts:33,70-75,116-187 *)
Definition js_sync_to_token_2022 (prog w a u : pubkey) (t22 source owner : option pubkey) : tw_instruction :=
  mkTwIx prog
    [js_meta prog (some_address w) true; js_meta prog (some_address a) false; js_meta prog (some_address u) false;
     js_meta prog (some_address (js_or t22 t22_id)) false; js_meta prog (opt_address source) false; js_meta prog (opt_address owner) false]
    [4].
(** generated/instructions/syncMetadataToSplToken.ts:33,76-81,135-229 *)
Definition js_sync_to_spl_token (prog md a w u : pubkey) (mpl sys rent source owner : option pubkey) : tw_instruction :=
  mkTwIx prog
    [js_meta prog (some_address md) true; js_meta prog (some_address a) true; js_meta prog (some_address w) false;
     js_meta prog (some_address u) false; js_meta prog (some_address (js_or mpl mpl_id)) false; js_meta prog (some_address (js_or sys system_id)) false;
     js_meta prog (some_address (js_or rent rent_sysvar_id)) false; js_meta prog (opt_address source) false; js_meta prog (opt_address owner) false]
    [5].

(** ** Generated parsers *)

(** generated/programs/tokenWrap.ts:63-70 *)
Inductive js_kind := JkCreateMint | JkWrap | JkUnwrap | JkCloseStuckEscrow | JkSyncToToken2022 | JkSyncToSplToken.
(** generated/programs/tokenWrap.ts:72-99; containsBytes(data, [n], 0) *)
Definition js_identify (data : list N) : res js_kind :=
  match data with
  | [] => Err EInvalidArgument
  | t :: _ =>
      if t =? 0 then Ok JkCreateMint else if t =? 1 then Ok JkWrap else if t =? 2 then Ok JkUnwrap
      else if t =? 3 then Ok JkCloseStuckEscrow else if t =? 4 then Ok JkSyncToToken2022
      else if t =? 5 then Ok JkSyncToSplToken else Err EInvalidArgument
  end.
(** The parsed instructions: accounts by name, in order; [option] where undefined is possible. *)
Inductive js_parsed :=
| PjCreateMint (w b u : info) (sys : option info) (wtp : info) (idempotent : bool)
| PjWrap (r w a utp wtp s u esc ta : info) (amount : N)
| PjUnwrap (esc r a u wtp utp s w ta : info) (amount : N)
| PjCloseStuckEscrow (esc d u w a : info) (t22 : option info)
| PjSyncToToken2022 (w a u : info) (t22 : info) (source owner : option info)
| PjSyncToSplToken (md a w u mpl sys rent : info) (source owner : option info).
(** getNextOptionalAccount: token-wrap's address stands for "undefined". *)
Definition js_opt (m : info) : option info := if pk_eqb (i_key m) tw_id then None else Some m.
(** generated/instructions/*.ts parse…Instruction; generated/programs/tokenWrap.ts:115-160.  Accounts beyond the named ones are
    ignored; too few throw. *)
Definition js_parse (i : tw_instruction) : res js_parsed :=
  k <- js_identify (tx_data i) ;;
  match k, tx_metas i with
  | JkCreateMint, w :: b :: u :: sys :: wtp :: _ =>                                               (* createMint.ts:218-250 *)
      x <- js_read_bool (tl (tx_data i)) ;; Ok (PjCreateMint w b u (js_opt sys) wtp x)
  | JkWrap, r :: w :: a :: utp :: wtp :: s :: u :: esc :: ta :: _ =>                              (* wrap.ts:294-326 *)
      n <- js_read_u64 (tl (tx_data i)) ;; Ok (PjWrap r w a utp wtp s u esc ta n)
  | JkUnwrap, esc :: r :: a :: u :: wtp :: utp :: s :: w :: ta :: _ =>                            (* unwrap.ts:294-326 *)
      n <- js_read_u64 (tl (tx_data i)) ;; Ok (PjUnwrap esc r a u wtp utp s w ta n)
  | JkCloseStuckEscrow, esc :: d :: u :: w :: a :: t22 :: _ =>                                    (* closeStuckEscrow.ts:202-235 *)
      Ok (PjCloseStuckEscrow esc d u w a (js_opt t22))
  | JkSyncToToken2022, w :: a :: u :: t22 :: source :: owner :: _ =>                              (* syncMetadataToToken2022.ts:217-253 *)
      Ok (PjSyncToToken2022 w a u t22 (js_opt source) (js_opt owner))
  | JkSyncToSplToken, md :: a :: w :: u :: mpl :: sys :: rent :: source :: owner :: _ =>          (* syncMetadataToSplToken.ts:266-305 *)
      Ok (PjSyncToSplToken md a w u mpl sys rent (js_opt source) (js_opt owner))
  | _, _ => Err EInvalidArgument
  end.
(** generated/errors/tokenWrap.ts:18-33, and the message for each code, 56-73 *)
Definition js_error (code : N) : option (tw_error * string) :=
  nth_error
    [ (WrappedMintMismatch, "Wrapped mint account address does not match expected PDA");
      (BackpointerMismatch, "Wrapped backpointer account address does not match expected PDA");
      (ZeroWrapAmount, "Wrap amount should be positive");
      (MintAuthorityMismatch, "Wrapped mint authority does not match expected PDA");
      (EscrowOwnerMismatch, "Unwrapped escrow token owner is not set to expected PDA");
      (InvalidWrappedMintOwner, "Wrapped mint account owner is not the expected token program");
      (InvalidBackpointerOwner, "Wrapped backpointer account owner is not the expected token wrap program");
      (EscrowMismatch, "Escrow account address does not match expected ATA");
      (EscrowInGoodState, "The escrow account is in a good state and cannot be recreated");
      (UnwrappedMintHasNoMetadata, "Unwrapped mint does not have the TokenMetadata extension");
      (MetaplexMetadataMismatch, "Metaplex metadata account address does not match expected PDA");
      (MetadataPointerMissing, "Metadata pointer extension missing on mint");
      (MetadataPointerUnset, "Metadata pointer is unset (None)");
      (MetadataPointerMismatch, "Provided source metadata account does not match pointer");
      (ExternalProgramReturnedNoData, "External metadata program returned no data");
      (NoSyncingToToken2022, "Instruction can only be used with spl-token wrapped mints") ]%string (N.to_nat code).

(** error.rs:14-69: the [#[error("…")]] texts of the program's errors (thiserror's Display), for comparison. *)
Definition tw_error_message (x : tw_error) : string :=
  match x with
  | WrappedMintMismatch => "Wrapped mint account address does not match expected PDA"
  | BackpointerMismatch => "Wrapped backpointer account address does not match expected PDA"
  | ZeroWrapAmount => "Wrap amount should be positive"
  | MintAuthorityMismatch => "Wrapped mint authority does not match expected PDA"
  | EscrowOwnerMismatch => "Unwrapped escrow token owner is not set to expected PDA"
  | InvalidWrappedMintOwner => "Wrapped mint account owner is not the expected token program"
  | InvalidBackpointerOwner => "Wrapped backpointer account owner is not the expected token wrap program"
  | EscrowMismatch => "Escrow account address does not match expected ATA"
  | EscrowInGoodState => "The escrow account is in a good state and cannot be recreated"
  | UnwrappedMintHasNoMetadata => "Unwrapped mint does not have the TokenMetadata extension"
  | MetaplexMetadataMismatch => "Metaplex metadata account address does not match expected PDA"
  | MetadataPointerMissing => "Metadata pointer extension missing on mint"
  | MetadataPointerUnset => "Metadata pointer is unset (None)"
  | MetadataPointerMismatch => "Provided source metadata account does not match pointer"
  | ExternalProgramReturnedNoData => "External metadata program returned no data"
  | NoSyncingToToken2022 => "Instruction can only be used with spl-token wrapped mints"
  end.

(** ** Addresses *)

(** getProgramDerivedAddress (external): as Pubkey::find_program_address; throws when no bump works. *)
Definition js_pda (e : env) (seeds : list atom) (prog : pubkey) : res pubkey :=
  r <- find_program_address e seeds prog ;; Ok (fst r).
(** generated/pdas/wrappedMint.ts:22-37 *)
Definition js_wrapped_mint (e : env) (u wtp : pubkey) : res pubkey := js_pda e (str_atoms "mint" ++ [inr u; inr wtp]) tw_id.
(** generated/pdas/wrappedMintAuthority.ts:21-32 *)
Definition js_authority (e : env) (w : pubkey) : res pubkey := js_pda e (str_atoms "authority" ++ [inr w]) tw_id.
(** generated/pdas/backpointer.ts:21-32 *)
Definition js_backpointer (e : env) (w : pubkey) : res pubkey := js_pda e (str_atoms "backpointer" ++ [inr w]) tw_id.
(** findAssociatedTokenPda (external: @solana-program/token-2022): seeds owner, token program, mint *)
Definition js_ata (e : env) (owner mnt p : pubkey) : res pubkey := js_pda e [inr owner; inr p; inr mnt] ata_id.

(** ** Account reads.  [dec] is getTokenDecoder().decode(…).mint: of a token account it is the mint; of other data it may be
    anything — the decoder checks nothing but the length. *)
Definition decoder := data -> res pubkey.
(** utilities.ts:126-132 *)
Definition js_owner (l : ledger) (k : pubkey) : res pubkey := get_account_owner l k.
(** utilities.ts:134-143 *)
Definition js_mint_of (dec : decoder) (l : ledger) (k : pubkey) : res pubkey := a <- get_account l k ;; dec (a_data a).

(** ** Transactions: an instruction travels with the signers attached to its accounts. *)
Record js_ix := mkJsIx { jx_ix : tx_ix; jx_signers : list signer }.
(** signTransactionMessageWithSigners (external): one signer per address; every attached signer signs, if it can. *)
Fixpoint one_each (ss : list signer) : list signer :=
  match ss with
  | [] => []
  | s :: r => s :: filter (fun x => negb (pk_eqb (sg_key x) (sg_key s))) (one_each r)
  end.
Definition same_signer (s x : signer) : bool := negb (pk_eqb (sg_key s) (sg_key x)) || Bool.eqb (sg_signs s) (sg_signs x).
Definition js_sign (payer : signer) (ixs : list js_ix) : res transaction :=
  let ss := payer :: flat_map jx_signers ixs in
  guard (forallb (fun s => forallb (same_signer s) ss) ss) EInvalidArgument ;;
  Ok (mkTx (sg_key payer) (map jx_ix ixs) (map sg_key (filter sg_signs (one_each ss)))).

(** create-mint.ts:34-44,46-125.  getMintSize (external): 82, or with extensions 165 + 1 + 4 + length for each. *)
Definition js_mint_size : N := 82.
Definition js_default_mint_size : N := 165 + 1 + (4 + 65) + (4 + 64).
Definition js_top_up (payer : signer) (k : pubkey) (rent have : N) : list js_ix :=
  if have <? rent then [mkJsIx (TxTransfer (sg_key payer) k (rent - have)) [payer]] else [].
Definition js_create_mint_helper (e : env) (payer : signer) (u wtp : pubkey) (idempotent : bool) (l : ledger) : res (list js_ix) :=
  w <- js_wrapped_mint e u wtp ;;                                                                 (* 53-56 *)
  b <- js_backpointer e w ;;                                                                      (* 57 *)
  let size := if pk_eqb wtp t22_id then js_default_mint_size else js_mint_size in                 (* 64-67 *)
  Ok (js_top_up payer w (e_rent e size) (lamports_of l w) ++                                      (* 69-84 *)
      js_top_up payer b (e_rent e 32) (lamports_of l b) ++                                        (* 86-105 *)
      [mkJsIx (TxTokenWrap (js_create_mint tw_id w b u wtp None (Some idempotent))) []]).         (* 107-116 *)

(** utilities.ts:94-124; [None]: already exists.  fetchMaybeToken decodes what it finds. *)
Definition js_create_escrow (e : env) (dec : decoder) (payer : signer) (u wtp : pubkey) (l : ledger) : res (option (list js_ix)) :=
  w <- js_wrapped_mint e u wtp ;;
  a <- js_authority e w ;;
  utp <- js_owner l u ;;
  esc <- js_ata e a u utp ;;
  match get_account l esc with
  | Ok acct => _ <- dec (a_data acct) ;; Ok None
  | Err _ => Ok (Some [mkJsIx (TxAssociated (sg_key payer) a u utp) [payer]])
  end.

(** wrap.ts:58-68: arguments of singleSignerWrap *)
Record js_wrap_args := mkJsWrap {
  jw_source : pubkey; jw_wtp : pubkey; jw_amount : Z;
  jw_authority : option js_account; jw_mint : option pubkey; jw_recipient : option pubkey; jw_utp : option pubkey }.
(** wrap.ts:178-211 *)
Definition js_build_wrap (e : env) (source wtp : pubkey) (amount : Z) (ta : js_account) (u w a recipient utp : pubkey) (multi : list signer) : res js_ix :=
  esc <- js_ata e a u utp ;;
  i <- js_wrap tw_id recipient w a utp wtp source u esc ta amount multi ;;
  Ok (mkJsIx (TxTokenWrap i) (js_signers ta ++ multi)).
(** wrap.ts:76-175 *)
Definition js_single_wrap (e : env) (dec : decoder) (payer : signer) (x : js_wrap_args) (l : ledger) : res (list js_ix) :=
  u <- match jw_mint x with Some k => Ok k | None => js_mint_of dec l (jw_source x) end ;;         (* 147 *)
  utp <- match jw_utp x with Some k => Ok k | None => js_owner l (jw_source x) end ;;              (* 148 *)
  w <- js_wrapped_mint e u (jw_wtp x) ;;                                                          (* 149 *)
  a <- js_authority e w ;;                                                                        (* 150 *)
  r <- match jw_recipient x with Some k => Ok k | None => js_ata e (sg_key payer) w (jw_wtp x) end ;; (* 151-159 *)
  let ta := js_or (jw_authority x) (JsSigner payer) in                                            (* 166 *)
  i <- js_build_wrap e (jw_source x) (jw_wtp x) (jw_amount x) ta u w a r utp [] ;;                (* 107-117 *)
  Ok [i].

(** unwrap.ts:22-33: arguments of singleSignerUnwrap *)
Record js_unwrap_args := mkJsUnwrap {
  ju_source : pubkey; ju_recipient : pubkey; ju_amount : Z;
  ju_authority : option js_account; ju_mint : option pubkey; ju_wtp : option pubkey; ju_utp : option pubkey }.
(** unwrap.ts:94-127 *)
Definition js_build_unwrap (e : env) (source : pubkey) (amount : Z) (w a u recipient utp wtp : pubkey) (ta : js_account) (multi : list signer) : res js_ix :=
  esc <- js_ata e a u utp ;;
  i <- js_unwrap tw_id esc recipient a u wtp utp source w ta amount multi ;;
  Ok (mkJsIx (TxTokenWrap i) (js_signers ta ++ multi)).
(** unwrap.ts:35-79,139-186 *)
Definition js_single_unwrap (e : env) (dec : decoder) (payer : signer) (x : js_unwrap_args) (l : ledger) : res (list js_ix) :=
  wtp <- match ju_wtp x with Some k => Ok k | None => js_owner l (ju_source x) end ;;              (* 54 *)
  utp <- match ju_utp x with Some k => Ok k | None => js_owner l (ju_recipient x) end ;;           (* 55-56 *)
  u <- match ju_mint x with Some k => Ok k | None => js_mint_of dec l (ju_recipient x) end ;;      (* 57 *)
  w <- js_mint_of dec l (ju_source x) ;;                                                          (* 59-64 *)
  a <- js_authority e w ;;                                                                        (* 66 *)
  let ta := js_or (ju_authority x) (JsSigner payer) in                                            (* 69 *)
  i <- js_build_unwrap e (ju_source x) (ju_amount x) w a u (ju_recipient x) utp wtp ta [] ;;      (* 168-178 *)
  Ok [i].

(** ** Multisig: everybody signs a copy, the copies are combined *)

(** A compiled message: payer, the instruction with the privileges the message gives it, block hash.  The encoding to bytes
    (external) is taken to be injective. *)
Record message := mkMessage { mg_payer : pubkey; mg_ix : tw_instruction; mg_hash : N }.
(** A signature: genuine, of one key over one message, or any other bytes. *)
Inductive signature := SigOf (k : pubkey) (m : message) | SigJunk (n : N).
Record signed_tx := mkSigned { sn_msg : message; sn_sigs : list (pubkey * option signature) }.
(** multisigOfflineSignWrap wrap.ts:44-56, multisigOfflineSignUnwrap unwrap.ts:197-208, then
    partiallySignTransactionMessageWithSigners (external): a slot for every key asked for, filled if its signer signs. *)
Definition compile (e : env) (payer : pubkey) (i : tw_instruction) (hash : N) : message :=
  mkMessage payer (mkTwIx (tx_prog i) (raised e payer [TxTokenWrap i] (tx_metas i)) (tx_data i)) hash.
Definition slots (e : env) (m : message) : list pubkey :=
  nodup pk_dec (filter (must_sign e (mg_payer m) [TxTokenWrap (mg_ix m)]) (all_keys e (mg_payer m) [TxTokenWrap (mg_ix m)])).
Definition partially_sign (e : env) (m : message) (ss : list signer) : res signed_tx :=
  guard (forallb (fun s => forallb (same_signer s) ss) ss) EInvalidArgument ;;
  Ok (mkSigned m (map (fun k => (k, if existsb (fun s => pk_eqb (sg_key s) k && sg_signs s) ss then Some (SigOf k m) else None)) (slots e m))).
Definition js_offline (e : env) (payer : signer) (hash : N) (ix : res js_ix) : res signed_tx :=
  i <- ix ;;
  match jx_ix i with
  | TxTokenWrap t => partially_sign e (compile e (sg_key payer) t hash) (payer :: jx_signers i)
  | _ => Err EInvalidArgument
  end.
Definition js_offline_wrap (e : env) (payer : signer) (hash : N) (source wtp : pubkey) (amount : Z) (w a : pubkey) (ta : js_account)
    (u recipient utp : pubkey) (multi : list signer) : res signed_tx :=
  js_offline e payer hash (js_build_wrap e source wtp amount ta u w a recipient utp multi).
Definition js_offline_unwrap (e : env) (payer : signer) (hash : N) (source : pubkey) (amount : Z) (w a u recipient utp wtp : pubkey) (ta : js_account)
    (multi : list signer) : res signed_tx :=
  js_offline e payer hash (js_build_unwrap e source amount w a u recipient utp wtp ta multi).

Fixpoint list_eqb {A} (f : A -> A -> bool) (x y : list A) : bool :=
  match x, y with
  | [], [] => true
  | a :: r, b :: q => f a b && list_eqb f r q
  | _, _ => false
  end.
Definition info_eqb (a b : info) : bool := pk_eqb (i_key a) (i_key b) && Bool.eqb (i_signer a) (i_signer b) && Bool.eqb (i_writable a) (i_writable b).
Definition message_eqb (m m' : message) : bool :=
  pk_eqb (mg_payer m) (mg_payer m') && pk_eqb (tx_prog (mg_ix m)) (tx_prog (mg_ix m')) &&
  list_eqb info_eqb (tx_metas (mg_ix m)) (tx_metas (mg_ix m')) && list_eqb N.eqb (tx_data (mg_ix m)) (tx_data (mg_ix m')) && (mg_hash m =? mg_hash m').
(** utilities.ts:145-161 *)
Definition messages_equal (txs : list signed_tx) : res bool :=
  match txs with
  | [_] => Ok true
  | [] => Err EInvalidArgument
  | t :: _ => Ok (forallb (fun x => message_eqb (sn_msg t) (sn_msg x)) txs)
  end.
(** Assignment to a property of a JavaScript object: an existing key keeps its place, a new one goes to the end. *)
Fixpoint js_set {A} (k : pubkey) (v : A) (r : list (pubkey * A)) : list (pubkey * A) :=
  match r with
  | [] => [(k, v)]
  | (k', v') :: q => if pk_eqb k' k then (k', v) :: q else (k', v') :: js_set k v q
  end.
(** utilities.ts:163-203 *)
Definition fill (r : list (pubkey * option signature)) (t : signed_tx) : list (pubkey * option signature) :=
  fold_left (fun r p => match snd p with Some s => js_set (fst p) (Some s) r | None => r end) (sn_sigs t) r.
Fixpoint all_set (r : list (pubkey * option signature)) : res (list (pubkey * signature)) :=
  match r with
  | [] => Ok []
  | (k, Some s) :: q => x <- all_set q ;; Ok ((k, s) :: x)
  | (_, None) :: _ => Err EMissingRequiredSignature
  end.
Definition combine_signatures (txs : list signed_tx) : res (list (pubkey * signature)) :=
  match txs with
  | [] => Err EInvalidArgument
  | t :: _ => all_set (fold_left fill txs (fold_left (fun r p => js_set (fst p) None r) (sn_sigs t) []))
  end.
(** utilities.ts:213-234; assertIsFullySignedTransaction finds nothing missing any more. *)
Definition combine (txs : list signed_tx) : res (message * list (pubkey * signature)) :=
  b <- messages_equal txs ;;
  guard b EInvalidArgument ;;
  match txs with
  | [] => Err EInvalidArgument
  | t :: _ => ss <- combine_signatures txs ;; Ok (sn_msg t, ss)
  end.
(** What the network makes of the result: the encoder writes the signatures in the order of the object, the network expects one
    per slot of the message, in order; a signature counts if it is genuine. *)
Definition genuine (m : message) (p : pubkey * signature) : bool :=
  match snd p with
  | SigOf k m' => pk_eqb k (fst p) && message_eqb m m'
  | SigJunk _ => false
  end.
Definition to_network (e : env) (c : message * list (pubkey * signature)) : transaction :=
  let (m, ss) := c in
  mkTx (mg_payer m) [TxTokenWrap (mg_ix m)]
    (if (length ss =? length (slots e m))%nat then map fst (filter (genuine m) (List.combine (slots e m) (map snd ss))) else []).
