(** * JsAccounts.v — the rest of the JavaScript client: the generated Backpointer account reader (/repo/clients/js/src/generated/accounts/backpointer.ts)
    and the helper that creates plain token accounts (clients/js/src/utilities.ts:35-74). *)
From Verif Require Import Base Codec State Pda TokenProg Cpi Ata Meta Processor Builders Cli Js.

(** ** Backpointer accounts *)
(** generated/accounts/backpointer.ts:44-47 getBackpointerDecoder: one 32-byte address; shorter data throws, longer data is cut off.  [bytes]:
    the first 32 bytes, as an address, of data that this model does not hold as bytes. *)
Definition js_decode_backpointer (bytes : data -> pubkey) (d : data) : res pubkey :=
  if data_len d <? 32 then Err EInvalidArgument else match d with DKey k => Ok k | _ => Ok (bytes d) end.
(** generated/accounts/backpointer.ts:75-82 fetchMaybeBackpointer: [None] if the account does not exist. *)
Definition js_fetch_maybe_backpointer (bytes : data -> pubkey) (l : ledger) (b : pubkey) : res (option pubkey) :=
  match get_account l b with
  | Err _ => Ok None
  | Ok a => u <- js_decode_backpointer bytes (a_data a) ;; Ok (Some u)
  end.
(** generated/accounts/backpointer.ts:65-73 fetchBackpointer *)
Definition js_fetch_backpointer (bytes : data -> pubkey) (l : ledger) (b : pubkey) : res pubkey :=
  r <- js_fetch_maybe_backpointer bytes l b ;; of_option r EInvalidArgument.
(** generated/accounts/backpointer.ts:84-101 fetchAllMaybeBackpointer, fetchAllBackpointer: one address after the other; any that cannot be
    decoded (the latter: or does not exist) makes the whole call throw. *)
Definition js_fetch_all_maybe (bytes : data -> pubkey) (l : ledger) (bs : list pubkey) : res (list (option pubkey)) :=
  map_res (js_fetch_maybe_backpointer bytes l) bs.
Definition js_fetch_all (bytes : data -> pubkey) (l : ledger) (bs : list pubkey) : res (list pubkey) :=
  rs <- js_fetch_all_maybe bytes l bs ;; map_res (fun r => of_option r EInvalidArgument) rs.
(** generated/accounts/backpointer.ts:117-125 fetchMaybeBackpointerFromSeeds, with the default program address *)
Definition js_fetch_maybe_from_seeds (e : env) (bytes : data -> pubkey) (l : ledger) (w : pubkey) : res (option pubkey) :=
  b <- js_backpointer e w ;; js_fetch_maybe_backpointer bytes l b.
(** generated/accounts/backpointer.ts:107-115 fetchBackpointerFromSeeds *)
Definition js_fetch_from_seeds (e : env) (bytes : data -> pubkey) (l : ledger) (w : pubkey) : res pubkey :=
  r <- js_fetch_maybe_from_seeds e bytes l w ;; of_option r EInvalidArgument.
(** generated/accounts/backpointer.ts:103-105 *)
Definition js_backpointer_size : N := 32.

(** ** Plain token accounts *)
(** The two instructions of createTokenAccount: system program CreateAccount (external), InitializeAccount of a token program (external). *)
Inductive setup_ix :=
| SxCreateAccount (payer k : pubkey) (lamports space : N) (program : pubkey)
| SxInitializeAccount (p k mnt owner : pubkey).
(** utilities.ts:35-39 getInitializeTokenFn *)
Definition js_initialize_fn (p : pubkey) : res (pubkey -> pubkey -> pubkey -> setup_ix) :=
  if pk_eqb p spl_token_id then Ok (SxInitializeAccount spl_token_id)
  else if pk_eqb p t22_id then Ok (SxInitializeAccount t22_id)
  else Err EInvalidArgument.
(** utilities.ts:41-74; [k]: the key pair generated in line 55 *)
Definition js_create_token_account (e : env) (payer k mnt owner p : pubkey) : res (list setup_ix) :=
  let lamports := e_rent e 165 in                                                                  (* 56 *)
  let create := SxCreateAccount payer k lamports 165 p in                                          (* 59-65 *)
  init <- js_initialize_fn p ;;                                                                    (* 67 *)
  Ok [create; init k mnt owner].                                                                   (* 67-71, 73-76 *)
(** System program, CreateAccount (external), signed by payer and new account: the new account must be untouched. *)
Definition sys_create_account (payer k : pubkey) (n space : N) (p : pubkey) (l : ledger) : res ledger :=
  guard (a_lamports (l k) =? 0) (ERt AccountAlreadyInUse) ;;
  guard (data_is_empty (a_data (l k)) && pk_eqb (a_owner (l k)) system_id) (ERt AccountAlreadyInUse) ;;
  guard (space <=? 10485760) (ERt InvalidAccountDataLength) ;;
  sys_transfer payer k n (upd l k (mkAcc (a_lamports (l k)) (DRaw (zeros space)) p)).
Definition run_setup_ix (e : env) (ix : setup_ix) (l : ledger) : res ledger :=
  match ix with
  | SxCreateAccount payer k n space p => sys_create_account payer k n space p l
  | SxInitializeAccount p k mnt owner => tok_exec e p false [meta_w k true; meta_r mnt false; meta_r owner false] (TiInitializeAccount owner false) l
  end.
(** All instructions or none (one transaction). *)
Fixpoint run_setup (e : env) (ixs : list setup_ix) (l : ledger) : res ledger :=
  match ixs with [] => Ok l | ix :: r => l1 <- run_setup_ix e ix l ;; run_setup e r l1 end.
(** The transaction that carries them, signed by payer and new account, both of which hold their key pairs (examples/single-signer.ts:107-116,
    examples/multisig.ts:133-142): the network takes the fee first, and checks the rent of the writable accounts in the end (as [send] of Cli.v). *)
Definition setup_writes (payer : pubkey) (ixs : list setup_ix) : list pubkey :=
  payer :: flat_map (fun ix => match ix with SxCreateAccount q k _ _ _ => [q; k] | SxInitializeAccount _ k _ _ => [k] end) ixs.
Definition send_setup (e : env) (fee : N) (payer : pubkey) (ixs : list setup_ix) (l : ledger) : ledger * res unit :=
  let l1 := charge payer fee l in
  if negb (pk_eqb (a_owner (l payer)) system_id && data_is_empty (a_data (l payer)) && (fee <=? a_lamports (l payer)) && rent_ok e (l payer) (l1 payer))
  then (l, Err (ERt InsufficientLamports))
  else match run_setup e ixs l1 with
       | Ok l2 => if forallb (fun k => rent_ok e (l1 k) (l2 k)) (setup_writes payer ixs) then (l2, Ok tt) else (l1, Err EAccountNotRentExempt)
       | Err err => (l1, Err err)
       end.
