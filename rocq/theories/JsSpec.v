(** * JsSpec.v — the vocabulary of the properties about the JavaScript client. *)
From Verif Require Import Base Codec State Pda TokenProg Cpi Ata Meta Processor Builders Cli Js Spec HistorySpec CliSpec.

(** An optional account of a parsed instruction: token-wrap's own address stands for "left out". *)
Definition left_out_or (o : option info) (m : info) : Prop :=
  (i_key m = tw_id /\ o = None) \/ (i_key m <> tw_id /\ o = Some m).
(** The parsed instruction [p] says what the program does with it: same kind, same data, each account under its name. *)
Definition tells (p : js_parsed) (i : tw_instr (list N)) (ms : list info) : Prop :=
  match p, i with
  | PjCreateMint w b u sys wtp x, CreateMint y => x = y /\ exists s more, ms = [w; b; u; s; wtp] ++ more /\ left_out_or sys s
  | PjWrap r w a utp wtp s u esc ta n, Wrap m => n = m /\ exists more, ms = [r; w; a; utp; wtp; s; u; esc; ta] ++ more
  | PjUnwrap esc r a u wtp utp s w ta n, Unwrap m => n = m /\ exists more, ms = [esc; r; a; u; wtp; utp; s; w; ta] ++ more
  | PjCloseStuckEscrow esc d u w a t22, CloseStuckEscrow => exists t more, ms = [esc; d; u; w; a; t] ++ more /\ left_out_or t22 t
  | PjSyncToToken2022 w a u t22 source owner, SyncMetadataToToken2022 =>
      exists s o more, ms = [w; a; u; t22; s; o] ++ more /\ left_out_or source s /\ left_out_or owner o
  | PjSyncToSplToken md a w u mpl sys rent source owner, SyncMetadataToSplToken =>
      exists s o more, ms = [md; a; w; u; mpl; sys; rent; s; o] ++ more /\ left_out_or source s /\ left_out_or owner o
  | _, _ => False
  end.
(** How many accounts an instruction must have for the parser. *)
Definition parser_needs (i : tw_instr (list N)) : option nat :=
  match i with
  | CreateMint _ => Some 5%nat
  | Wrap _ | Unwrap _ => Some 9%nat
  | CloseStuckEscrow | SyncMetadataToToken2022 => Some 6%nat
  | SyncMetadataToSplToken => Some 9%nat
  | SetCanonicalPointer _ => None
  end.

(** The transaction a user signs and sends with the instructions a helper returns. *)
Definition js_transaction (payer : signer) (r : res (list js_ix)) : res transaction := ixs <- r ;; js_sign payer ixs.
(** The token decoder reads the mint of a token account. *)
Definition reads_mints (dec : decoder) : Prop := forall t, dec (DTok t) = Ok (t_mint t).
(** Who acts: the payer, or the signer named. *)
Definition js_acting (payer owner : pubkey) (authority : option js_account) : Prop :=
  (authority = None /\ owner = payer) \/ exists s, authority = Some (JsSigner s) /\ sg_key s = owner /\ sg_signs s = true.
(** The arguments ask to wrap [n] of [owner]'s tokens of [u] from [source], to [recipient]. *)
Definition js_wrap_asks (e : env) (payer : pubkey) (x : js_wrap_args) (u utp wtp source recipient owner : pubkey) (n : N) : Prop :=
  jw_source x = source /\ jw_wtp x = wtp /\ jw_amount x = Z.of_N n /\ given (jw_mint x) u /\ given (jw_utp x) utp /\
  (jw_recipient x = Some recipient \/
   (jw_recipient x = None /\ recipient = ata_of e payer (wrapped_mint_of e u wtp) wtp /\ derivable e (ata_seeds payer (wrapped_mint_of e u wtp) wtp) ata_id)) /\
  js_acting payer owner (jw_authority x).
(** The arguments ask to unwrap [n] of [owner]'s wrapped tokens from [source], to [recipient]. *)
Definition js_unwrap_asks (payer : pubkey) (x : js_unwrap_args) (u utp wtp source recipient owner : pubkey) (n : N) : Prop :=
  ju_source x = source /\ ju_recipient x = recipient /\ ju_amount x = Z.of_N n /\ given (ju_mint x) u /\ given (ju_utp x) utp /\ given (ju_wtp x) wtp /\
  js_acting payer owner (ju_authority x).
(** Transaction [t] carries [k]'s signature, or enough signatures of its members if [k] is a multisig of program [p]. *)
Definition signed_for (t : transaction) (l : ledger) (p k : pubkey) : Prop :=
  In k (tr_signed t) \/
  exists m, a_owner (l k) = p /\ a_data (l k) = DMultisig m /\ ms_m m <= N.of_nat (length (filter (fun x => pk_mem x (tr_signed t)) (ms_signers m))).

(** In copy [t], there is a signature of [k]. *)
Definition has_signed (t : signed_tx) (k : pubkey) : Prop := exists s, In (k, Some s) (sn_sigs t).
(** No signer is both asked to sign and not to sign (kit throws). *)
Definition consistent (ss : list signer) : Prop := forall s x, In s ss -> In x ss -> sg_key s = sg_key x -> sg_signs s = sg_signs x.
(** The participants of a multisig: everybody names the same payer and members, and each of them signs with somebody. *)
Definition participants (payer : pubkey) (members : list pubkey) (parts : list (signer * list signer)) : Prop :=
  (forall p, In p parts -> sg_key (fst p) = payer /\ map sg_key (snd p) = members /\ consistent (fst p :: snd p)) /\
  parts <> [] /\
  forall k, k = payer \/ In k members -> exists p s, In p parts /\ In s (fst p :: snd p) /\ sg_key s = k /\ sg_signs s = true.
