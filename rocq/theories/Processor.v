(** * Processor.v — processor.rs and mint_customizer/*.rs, function by function. *)
From Verif Require Import Base Codec State Pda TokenProg Cpi Meta.

(** ** Mint customizers *)

(** mint_customizer/interface.rs:8-27 trait MintCustomizer. *)
Record customizer := mkCustomizer {
  cu_space : res N;                                                      (* get_token_2022_mint_space *)
  cu_init : env -> ctx -> pubkey -> pubkey -> ledger -> res ledger;      (* initialize_extensions: mint, token program *)
  cu_freeze_dec : ledger -> pubkey -> res (option pubkey * N) }.         (* get_freeze_auth_and_decimals *)

Definition invoke_init_ext (e : env) (c : ctx) (p w : pubkey) (x : mint_ext) (l : ledger) : res ledger :=
  ix <- ix_init_ext p w x ;; invoke e c [] ix [w] l.

(** mint_customizer/default_token_2022.rs:24-32: space for ConfidentialTransferMint and
    MetadataPointer (the contents do not matter for the length). *)
Definition default_space : N :=
  mint_space [MxConfidentialTransferMint None true None; MxMetadataPointer None None].
(** default_token_2022.rs:34-63 *)
Definition default_init (e : env) (c : ctx) (w p : pubkey) (l : ledger) : res ledger :=
  l1 <- invoke_init_ext e c p w (MxConfidentialTransferMint None true None) l ;;
  auth <- get_wrapped_mint_authority e w ;;
  invoke_init_ext e c p w (MxMetadataPointer (Some auth) (Some w)) l1.
(** default_token_2022.rs:65-74 (= no_extensions.rs:22-31) *)
Definition copy_freeze_dec (l : ledger) (u : pubkey) : res (option pubkey * N) :=
  m <- pod_unpack_mint (a_data (l u)) ;; Ok (m_freeze m, m_decimals m).
Definition default_customizer : customizer :=
  mkCustomizer (Ok default_space) default_init copy_freeze_dec.

(** mint_customizer/no_extensions.rs:16-32 *)
Definition no_extension_customizer : customizer :=
  mkCustomizer (Ok (mint_space [])) (fun _ _ _ _ l => Ok l) copy_freeze_dec.

(** mint_customizer/compliance.rs:31-48; only distinctness of these keys matters. *)
Definition PERMANENT_DELEGATE : pubkey := PkRaw 20.
Definition CONFIDENTIAL_TRANSFER_AUTHORITY : pubkey := PkRaw 21.
Definition AUDITOR_ELGAMAL : N := 22.
Definition FREEZE_AUTHORITY : pubkey := PkRaw 23.
Definition PAUSE_AUTHORITY : pubkey := PkRaw 24.
(** compliance.rs:51-58 *)
Definition compliance_space : N :=
  mint_space [MxPermanentDelegate None; MxDefaultAccountState Initialized;
              MxConfidentialTransferMint None true None; MxPausable None false].
(** compliance.rs:60-114 *)
Definition compliance_init (e : env) (c : ctx) (w p : pubkey) (l : ledger) : res ledger :=
  l1 <- invoke_init_ext e c p w (MxPermanentDelegate (Some PERMANENT_DELEGATE)) l ;;
  l2 <- invoke_init_ext e c p w
          (MxConfidentialTransferMint (Some CONFIDENTIAL_TRANSFER_AUTHORITY) true (Some AUDITOR_ELGAMAL)) l1 ;;
  l3 <- invoke_init_ext e c p w (MxDefaultAccountState Initialized) l2 ;;
  invoke_init_ext e c p w (MxPausable (Some PAUSE_AUTHORITY) false) l3.
(** compliance.rs:116-127 *)
Definition compliance_freeze_dec (l : ledger) (u : pubkey) : res (option pubkey * N) :=
  m <- pod_unpack_mint (a_data (l u)) ;; Ok (Some FREEZE_AUTHORITY, m_decimals m).
Definition compliance_customizer : customizer :=
  mkCustomizer (Ok compliance_space) compliance_init compliance_freeze_dec.

(** Writing a 32-byte record in place: [bytemuck::from_bytes_mut] panics unless the data is
    32 bytes long; the runtime then requires the account to be owned by the executing program
    and, if the bytes change, writable. *)
Definition holds_key (d : data) (v : pubkey) : bool := match d with DKey v' => pk_eqb v' v | _ => false end.
Definition write_key (c : ctx) (k : pubkey) (v : pubkey) (l : ledger) : res ledger :=
  guard (data_len (a_data (l k)) =? 32) EPanic ;;
  guard (is_wr (c_infos c) k || holds_key (a_data (l k)) v) (ERt ReadonlyDataModified) ;;
  guard (pk_eqb (a_owner (l k)) (c_prog c)) (ERt ExternalAccountDataModified) ;;
  Ok (upd l k (with_data (DKey v) (l k))).

(** ** CreateMint — processor.rs:57-200 process_create_mint *)
Definition process_create_mint (cu : customizer) (e : env) (c : ctx) (idempotent : bool) (l : ledger) : res ledger :=
  match c_infos c with
  | wi :: bi :: ui :: _ :: pi :: _ =>                                   (* 64-68 *)
      let w := i_key wi in let b := i_key bi in let u := i_key ui in let p := i_key pi in
      wm <- get_wrapped_mint_address_with_seed e u p ;;                 (* 70-73 *)
      bm <- get_wrapped_mint_backpointer_address_with_seed e w ;;       (* 75-76 *)
      guard (pk_eqb w (fst wm)) (ETw WrappedMintMismatch) ;;            (* 80-82 *)
      guard (pk_eqb b (fst bm)) (ETw BackpointerMismatch) ;;            (* 84-86 *)
      guard (pk_eqb (a_owner (l u)) spl_token_id || pk_eqb (a_owner (l u)) t22_id) EInvalidAccountOwner ;; (* 89-93 *)
      if (0 <? data_len (a_data (l w))) || (0 <? data_len (a_data (l b))) then   (* 97-109 *)
        guard idempotent EAccountAlreadyInitialized ;;
        guard (pk_eqb (a_owner (l w)) p) (ETw InvalidWrappedMintOwner) ;;
        guard (pk_eqb (a_owner (l b)) (c_prog c)) (ETw InvalidBackpointerOwner) ;;
        Ok l
      else
        let signer_seeds := wrapped_mint_signer_seeds u p (snd wm) in   (* 113-118 *)
        space <- (if pk_eqb p t22_id then cu_space cu else Ok mint_base_len) ;;  (* 120-124 *)
        guard (e_rent e space <=? a_lamports (l w)) EAccountNotRentExempt ;;     (* 126-134 *)
        l1 <- invoke_signed e c [] (ix_allocate (fst wm) space) [w] [signer_seeds] l ;;   (* 138-142 *)
        l2 <- invoke_signed e c [] (ix_assign (fst wm) p) [w] [signer_seeds] l1 ;;        (* 143-147 *)
        l3 <- (if pk_eqb p t22_id then cu_init cu e c w p l2 else Ok l2) ;;               (* 149-151 *)
        fd <- cu_freeze_dec cu l3 u ;;                                                    (* 153 *)
        auth <- get_wrapped_mint_authority e w ;;                                         (* 154 *)
        ix <- ix_initialize_mint2 p w auth (fst fd) (snd fd) ;;                           (* 156-163 *)
        l4 <- invoke e c [] ix [w] l3 ;;                                                  (* 156-165 *)
        guard (e_rent e 32 <=? a_lamports (l4 b)) EAccountNotRentExempt ;;                (* 169-177 *)
        let b_seeds := backpointer_signer_seeds w (snd bm) in                             (* 179-181 *)
        l5 <- invoke_signed e c [] (ix_allocate (fst bm) 32) [b] [b_seeds] l4 ;;          (* 182-186 *)
        l6 <- invoke_signed e c [] (ix_assign (fst bm) (c_prog c)) [b] [b_seeds] l5 ;;    (* 187-191 *)
        write_key c b u l6                                                                (* 195-197 *)
  | _ => Err ENotEnoughAccountKeys
  end.

(** ** Wrap — processor.rs:203-317 process_wrap *)
Definition process_wrap (e : env) (c : ctx) (amount : N) (l : ledger) : res ledger :=
  guard (negb (amount =? 0)) (ETw ZeroWrapAmount) ;;                                     (* 204-206 *)
  match c_infos c with
  | ri :: wi :: ai :: upi :: wpi :: si :: ui :: ei :: ti :: additional =>                (* 210-218 *)
      let r := i_key ri in let w := i_key wi in let a := i_key ai in
      let up := i_key upi in let wp := i_key wpi in let s := i_key si in
      let u := i_key ui in let esc := i_key ei in let ta := i_key ti in
      w' <- get_wrapped_mint_address e u wp ;;                                           (* 222-226 *)
      guard (pk_eqb w' w) (ETw WrappedMintMismatch) ;;
      am <- get_wrapped_mint_authority_with_seed e w ;;                                  (* 228-231 *)
      guard (pk_eqb a (fst am)) (ETw MintAuthorityMismatch) ;;
      x <- get_associated_token_address e a u up ;;                                      (* 233-241 *)
      guard (pk_eqb esc x) (ETw EscrowMismatch) ;;
      et <- pod_unpack_tok (a_data (l esc)) ;;                                           (* 244-248 *)
      guard (pk_eqb (t_owner et) (fst am)) (ETw EscrowOwnerMismatch) ;;
      um <- pod_unpack_mint (a_data (l u)) ;;                                            (* 253-254 *)
      let fee := match ext_fee um with                                                   (* 257-262 *)
                 | Some cfg => match calculate_epoch_fee cfg (e_epoch e) amount with Some f => f | None => 0 end
                 | None => 0
                 end in
      guard (fee <=? amount) EArithmeticOverflow ;;                                      (* 263-265 *)
      let net := amount - fee in
      l1 <- (if pk_eqb up t22_id then                                                    (* 267-293 *)
               invoke_transfer_checked_with_fee e c [u] up s u esc ta additional amount (m_decimals um) fee [] l
             else
               invoke_transfer_checked e c [u] up s u esc ta additional amount (m_decimals um) [] l) ;;
      ix <- ix_mint_to wp w r a [] net ;;                                                (* 296-314 *)
      invoke_signed e c [u] ix [w; r; a] [wrapped_mint_authority_signer_seeds w (snd am)] l1
  | _ => Err ENotEnoughAccountKeys
  end.

(** ** Unwrap — processor.rs:320-399 process_unwrap *)
Definition process_unwrap (e : env) (c : ctx) (amount : N) (l : ledger) : res ledger :=
  guard (negb (amount =? 0)) (ETw ZeroWrapAmount) ;;                                     (* 321-323 *)
  match c_infos c with
  | ei :: ri :: ai :: ui :: wpi :: upi :: si :: wi :: ti :: additional =>                (* 327-336 *)
      let esc := i_key ei in let r := i_key ri in let a := i_key ai in let u := i_key ui in
      let wp := i_key wpi in let up := i_key upi in let s := i_key si in let w := i_key wi in
      let ta := i_key ti in
      w' <- get_wrapped_mint_address e u wp ;;                                           (* 340-344 *)
      guard (pk_eqb w' w) (ETw WrappedMintMismatch) ;;
      am <- get_wrapped_mint_authority_with_seed e w ;;                                  (* 346-349 *)
      guard (pk_eqb a (fst am)) (ETw MintAuthorityMismatch) ;;
      x <- get_associated_token_address e a u up ;;                                      (* 351-358 *)
      guard (pk_eqb esc x) (ETw EscrowMismatch) ;;
      msk <- e_multisig e l ta additional ;;                                             (* 362-365 *)
      ix <- ix_burn wp s w ta msk amount ;;                                              (* 367-377 *)
      l1 <- invoke e c [] ix (map i_key (si :: wi :: ti :: additional)) l ;;
      um <- pod_unpack_mint (a_data (l1 u)) ;;                                           (* 381-382 *)
      invoke_transfer_checked e c [u] up esc u r a additional amount (m_decimals um)     (* 383-396 *)
        [wrapped_mint_authority_signer_seeds w (snd am)] l1
  | _ => Err ENotEnoughAccountKeys
  end.

(** ** CloseStuckEscrow — processor.rs:402-506 process_close_stuck_escrow *)
Definition ext_type_mem (x : acct_ext_type) (l : list acct_ext_type) : bool := existsb (acct_ext_type_eqb x) l.
(** 463-472: required extensions, plus ImmutableOwner if not already there. *)
Definition required_account_extensions (m : mint) : list acct_ext_type :=
  let req := required_init_account_exts (m_exts m) in
  if ext_type_mem XtImmutableOwner req then req else req ++ [XtImmutableOwner].
(** 476-479 *)
Definition in_good_state (current required : list acct_ext_type) : bool :=
  Nat.eqb (length current) (length required) && forallb (fun x => ext_type_mem x current) required.

Definition process_close_stuck_escrow (e : env) (c : ctx) (l : ledger) : res ledger :=
  match c_infos c with
  | ei :: di :: ui :: wi :: ai :: _ :: _ =>                                              (* 405-410 *)
      let esc := i_key ei in let d := i_key di in let u := i_key ui in
      let w := i_key wi in let a := i_key ai in
      guard (pk_eqb (a_owner (l esc)) t22_id && pk_eqb (a_owner (l u)) t22_id) EIncorrectProgramId ;;  (* 414-418 *)
      w' <- get_wrapped_mint_address e u (a_owner (l w)) ;;                              (* 420-424 *)
      guard (pk_eqb w w') (ETw WrappedMintMismatch) ;;
      am <- get_wrapped_mint_authority_with_seed e w ;;                                  (* 426-429 *)
      guard (pk_eqb a (fst am)) (ETw MintAuthorityMismatch) ;;
      x <- get_associated_token_address e a u (a_owner (l u)) ;;                         (* 431-439 *)
      guard (pk_eqb esc x) (ETw EscrowMismatch) ;;
      et <- pod_unpack_tok (a_data (l esc)) ;;                                           (* 441-446 *)
      guard (pk_eqb (t_owner et) a) (ETw EscrowOwnerMismatch) ;;
      guard (t_amount et =? 0) EInvalidAccountData ;;                                    (* 449-451 *)
      guard (acct_state_eqb (t_state et) Initialized) EInvalidAccountData ;;             (* 454-456 *)
      let current := map acct_ext_type_of (t_exts et) in                                 (* 458 *)
      m <- pod_unpack_mint (a_data (l u)) ;;                                             (* 461-462 *)
      guard (negb (in_good_state current (required_account_extensions m))) (ETw EscrowInGoodState) ;; (* 463-483 *)
      ix <- ix_close_account (a_owner (l esc)) esc d a [] ;;                             (* 486-503 *)
      invoke_signed e c [u] ix [esc; d; a] [wrapped_mint_authority_signer_seeds w (snd am)] l
  | _ => Err ENotEnoughAccountKeys
  end.

(** ** SyncMetadataToToken2022 — processor.rs:508-686 *)

Definition get_field (f : field) (t : token_metadata) : string :=
  match f with FName => tm_name t | FSymbol => tm_symbol t | FUri => tm_uri t | FKey _ => EmptyString end.

Definition cpi_update_field (e : env) (c : ctx) (p w a : pubkey) (f : field) (v : string) (seeds : list atom)
    (l : ledger) : res ledger :=
  invoke_signed e c [] (ix_md_update_field p w a f v) [w; a] [seeds] l.

(** processor.rs:510-537 update_fields_if_changed *)
Fixpoint update_fields_if_changed (e : env) (c : ctx) (p w a : pubkey) (fields : list field)
    (wrapped unwrapped : token_metadata) (seeds : list atom) (l : ledger) : res ledger :=
  match fields with
  | [] => Ok l
  | f :: r =>
      l1 <- (if String.eqb (get_field f wrapped) (get_field f unwrapped) then Ok l
             else cpi_update_field e c p w a f (get_field f unwrapped) seeds l) ;;
      update_fields_if_changed e c p w a r wrapped unwrapped seeds l1
  end.

(** std::collections::HashMap<String, String> as an association list without duplicate keys. *)
Definition hm_insert (kv : string * string) (m : list (string * string)) : list (string * string) :=
  assoc_set (fst kv) (snd kv) m.
Definition hm_collect (kvs : list (string * string)) : list (string * string) :=
  fold_left (fun m kv => hm_insert kv m) kvs [].
Fixpoint hm_get (k : string) (m : list (string * string)) : option string :=
  match m with
  | [] => None
  | (k', v) :: r => if String.eqb k' k then Some v else hm_get k r
  end.
Definition hm_remove (k : string) (m : list (string * string)) : list (string * string) :=
  filter (fun kv => negb (String.eqb (fst kv) k)) m.
(** Iteration order of [keys()]: ascending in the arbitrary ranking [e_rank] (any order of
    distinct keys is obtained for some ranking). *)
Fixpoint insert_by_rank (rank : string -> N) (k : string) (l : list string) : list string :=
  match l with
  | [] => [k]
  | k' :: r => if rank k <=? rank k' then k :: l else k' :: insert_by_rank rank k r
  end.
Definition hm_keys (rank : string -> N) (m : list (string * string)) : list string :=
  fold_right (insert_by_rank rank) [] (map fst m).

Definition opt_string_eqb (a b : option string) : bool :=
  match a, b with
  | Some x, Some y => String.eqb x y
  | None, None => true
  | _, _ => false
  end.

(** processor.rs:618-635: loop over the source's additional fields; returns the remaining map. *)
Fixpoint sync_additional (e : env) (c : ctx) (p w a : pubkey) (seeds : list atom)
    (kvs : list (string * string)) (hm : list (string * string)) (l : ledger)
    : res (list (string * string) * ledger) :=
  match kvs with
  | [] => Ok (hm, l)
  | (k, v) :: r =>
      l1 <- (if opt_string_eqb (hm_get k hm) (Some v) then Ok l
             else cpi_update_field e c p w a (FKey k) v seeds l) ;;
      sync_additional e c p w a seeds r (hm_remove k hm) l1
  end.
(** processor.rs:638-650: remove stale keys. *)
Fixpoint remove_stale (e : env) (c : ctx) (p w a : pubkey) (seeds : list atom) (ks : list string) (l : ledger) : res ledger :=
  match ks with
  | [] => Ok l
  | k :: r =>
      l1 <- invoke_signed e c [] (ix_md_remove_key p w a k false) [w; a] [seeds] l ;;
      remove_stale e c p w a seeds r l1
  end.
(** processor.rs:670-682: add all additional fields after initialisation. *)
Fixpoint add_all (e : env) (c : ctx) (p w a : pubkey) (seeds : list atom) (kvs : list (string * string)) (l : ledger) : res ledger :=
  match kvs with
  | [] => Ok l
  | (k, v) :: r =>
      l1 <- cpi_update_field e c p w a (FKey k) v seeds l ;;
      add_all e c p w a seeds r l1
  end.

(** [Iterator::next] on the remaining accounts. *)
Definition opt_hd (l : list info) : option info := match l with [] => None | i :: _ => Some i end.

Definition process_sync_metadata_to_token_2022 (e : env) (c : ctx) (l : ledger) : res ledger :=
  match c_infos c with
  | wi :: ai :: ui :: pi :: rest =>                                                      (* 543-546 *)
      let w := i_key wi in let a := i_key ai in let u := i_key ui in let p := i_key pi in
      let src := opt_hd rest in let op := opt_hd (tl rest) in                            (* 547-548 *)
      guard (pk_eqb p t22_id) EIncorrectProgramId ;;                                     (* 550-552 *)
      guard (pk_eqb (a_owner (l w)) t22_id) EIncorrectProgramId ;;                       (* 554-556 *)
      wm <- get_wrapped_mint_address_with_seed e u t22_id ;;                             (* 558-564 *)
      guard (pk_eqb w (fst wm)) (ETw WrappedMintMismatch) ;;
      am <- get_wrapped_mint_authority_with_seed e w ;;                                  (* 565-569 *)
      guard (pk_eqb a (fst am)) (ETw MintAuthorityMismatch) ;;
      um <- extract_token_metadata e c l u src op ;;                                     (* 571-575 *)
      let seeds := wrapped_mint_authority_signer_seeds w (snd am) in                     (* 577-579 *)
      m <- pod_unpack_mint (a_data (l w)) ;;                                             (* 581-585 *)
      match ext_metadata m with
      | Some wm =>
          l1 <- update_fields_if_changed e c p w a [FName; FSymbol; FUri] wm um seeds l ;;   (* 598-612 *)
          r <- sync_additional e c p w a seeds (tm_additional um) (hm_collect (tm_additional wm)) l1 ;; (* 615-635 *)
          remove_stale e c p w a seeds (hm_keys (e_rank e) (fst r)) (snd r)              (* 638-650 *)
      | None =>
          l1 <- invoke_signed e c [] (ix_md_initialize p w a w a (tm_name um) (tm_symbol um) (tm_uri um)) [w; a] [seeds] l ;; (* 654-667 *)
          add_all e c p w a seeds (tm_additional um) l1                                  (* 670-682 *)
      end
  | _ => Err ENotEnoughAccountKeys
  end.

(** ** SyncMetadataToSplToken — processor.rs:690-800 *)
Definition process_sync_metadata_to_spl_token (e : env) (c : ctx) (l : ledger) : res ledger :=
  match c_infos c with
  | mi :: ai :: wi :: ui :: xi :: sysi :: renti :: rest =>                               (* 692-698 *)
      let md := i_key mi in let a := i_key ai in let w := i_key wi in let u := i_key ui in
      let x := i_key xi in
      let src := opt_hd rest in let op := opt_hd (tl rest) in                            (* 699-700 *)
      guard (pk_eqb (a_owner (l w)) spl_token_id) (ETw NoSyncingToToken2022) ;;          (* 704-706 *)
      wm <- get_wrapped_mint_address_with_seed e u spl_token_id ;;                       (* 708-712 *)
      guard (pk_eqb w (fst wm)) (ETw WrappedMintMismatch) ;;
      am <- get_wrapped_mint_authority_with_seed e w ;;                                  (* 714-718 *)
      guard (pk_eqb a (fst am)) (ETw MintAuthorityMismatch) ;;
      mp <- metaplex_find_pda e w ;;                                                     (* 720-723 *)
      guard (pk_eqb md (fst mp)) (ETw MetaplexMetadataMismatch) ;;
      guard (pk_eqb x mpl_id) EIncorrectProgramId ;;                                     (* 725-727 *)
      um <- extract_token_metadata e c l u src op ;;                                     (* 731-735 *)
      let seeds := wrapped_mint_authority_signer_seeds w (snd am) in                     (* 739-741 *)
      d <- token_2022_metadata_to_metaplex e um ;;                                       (* 743 *)
      if data_is_empty (a_data (l md)) then                                              (* 748-774 *)
        invoke_signed e c [] (ix_mpl_create md w a a a (i_key sysi) (i_key renti) d true)
          [md; w; a; i_key sysi; i_key renti] [seeds] l
      else                                                                               (* 775-797 *)
        invoke_signed e c [] (ix_mpl_update md a d) [md; a] [seeds] l
  | _ => Err ENotEnoughAccountKeys
  end.

(** ** SetCanonicalPointer — processor.rs:804-885 *)
Definition process_set_canonical_pointer (e : env) (c : ctx) (new_program_id : pubkey) (l : ledger) : res ledger :=
  match c_infos c with
  | ai :: pi :: ui :: _ :: _ =>                                                          (* 810-813 *)
      let a := i_key ai in let p := i_key pi in let u := i_key ui in
      guard (i_signer ai) EMissingRequiredSignature ;;                                   (* 815-817 *)
      guard (pk_eqb (a_owner (l u)) spl_token_id || pk_eqb (a_owner (l u)) t22_id) EInvalidAccountOwner ;; (* 819-823 *)
      m <- pod_unpack_mint (a_data (l u)) ;;                                             (* 825-826 *)
      ma <- of_option (m_auth m) EInvalidAccountData ;;                                  (* 827-833 *)
      guard (pk_eqb ma a) EIncorrectAuthority ;;                                         (* 835-837 *)
      pp <- get_canonical_pointer_address_with_seed e u ;;                               (* 839-848 *)
      guard (pk_eqb p (fst pp)) EInvalidArgument ;;
      l2 <- (if data_is_empty (a_data (l p)) then                                        (* 851-876 *)
               guard (e_rent e 32 <=? a_lamports (l p)) EAccountNotRentExempt ;;
               let seeds := canonical_pointer_signer_seeds u (snd pp) in
               l1 <- invoke_signed e c [u] (ix_allocate p 32) [p] [seeds] l ;;
               invoke_signed e c [u] (ix_assign p (c_prog c)) [p] [seeds] l1
             else Ok l) ;;
      write_key c p new_program_id l2                                                    (* 880-882 *)
  | _ => Err ENotEnoughAccountKeys
  end.

(** ** Dispatch — processor.rs:888-927 process_instruction *)
Definition process_instr (e : env) (c : ctx) (i : tw_instr pubkey) (l : ledger) : res ledger :=
  match i with
  | CreateMint idempotent => process_create_mint default_customizer e c idempotent l
  | Wrap amount => process_wrap e c amount l
  | Unwrap amount => process_unwrap e c amount l
  | CloseStuckEscrow => process_close_stuck_escrow e c l
  | SyncMetadataToToken2022 => process_sync_metadata_to_token_2022 e c l
  | SyncMetadataToSplToken => process_sync_metadata_to_spl_token e c l
  | SetCanonicalPointer k => process_set_canonical_pointer e c k l
  end.
Definition process_instruction (e : env) (c : ctx) (input : list N) (l : ledger) : res ledger :=
  i <- unpack input ;; process_instr e c (map_instr (e_key_of_bytes e) i) l.

(** The runtime commits the new ledger on success and discards every change on failure. *)
Definition run_instruction (e : env) (c : ctx) (input : list N) (l : ledger) : ledger * res unit :=
  match process_instruction e c input l with
  | Ok l' => (l', Ok tt)
  | Err err => (l, Err err)
  end.

(** A transaction (Solana runtime): its instructions run in order on the ledger left by the
    previous ones; if one fails, nothing is committed. *)
Fixpoint run_steps (txs : list (env * list info * list N)) (l : ledger) : res ledger :=
  match txs with
  | [] => Ok l
  | (e, accounts, input) :: r => l1 <- process_instruction e (mkCtx tw_id accounts) input l ;; run_steps r l1
  end.
Definition run_transaction (txs : list (env * list info * list N)) (l : ledger) : ledger * res unit :=
  match run_steps txs l with
  | Ok l' => (l', Ok tt)
  | Err err => (l, Err err)
  end.
