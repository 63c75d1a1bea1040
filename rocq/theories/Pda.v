(** * Pda.v — program-derived addresses (lib.rs and solana_pubkey). *)
From Verif Require Import Base State.

Definition str_atoms (s : string) : list atom :=
  map (fun c => inl (N_of_ascii c)) (list_ascii_of_string s).

(** [Pubkey::create_program_address] (external): the hash of the seeds if it is off curve. *)
Definition create_program_address (e : env) (seeds : list atom) (prog : pubkey) : res pubkey :=
  if e_off_curve e seeds prog then Ok (PkDerived seeds prog) else Err EInvalidSeeds.

(** [Pubkey::try_find_program_address] (external): bumps 255 down to 1, first one off curve. 0 = none. *)
Fixpoint search_bump (e : env) (seeds : list atom) (prog : pubkey) (n : nat) : N :=
  match n with
  | O => 0
  | S n' =>
      if e_off_curve e (seeds ++ [inl (N.of_nat n)]) prog then N.of_nat n
      else search_bump e seeds prog n'
  end.
Definition find_bump (e : env) (seeds : list atom) (prog : pubkey) : N :=
  search_bump e seeds prog 255.
(** The address derived from [seeds] with the canonical bump. *)
Definition pda (e : env) (seeds : list atom) (prog : pubkey) : pubkey :=
  PkDerived (seeds ++ [inl (find_bump e seeds prog)]) prog.
(** [Pubkey::find_program_address]: panics when no bump works. *)
Definition find_program_address (e : env) (seeds : list atom) (prog : pubkey) : res (pubkey * N) :=
  let b := find_bump e seeds prog in
  if b =? 0 then Err EPanic else Ok (PkDerived (seeds ++ [inl b]) prog, b).

(** lib.rs:21 / 41-50 *)
Definition wrapped_mint_seeds (u wtp : pubkey) : list atom := str_atoms "mint" ++ [inr u; inr wtp].
(** lib.rs:52-63 *)
Definition wrapped_mint_signer_seeds (u wtp : pubkey) (bump : N) : list atom :=
  str_atoms "mint" ++ [inr u; inr wtp] ++ [inl bump].
(** lib.rs:30-39 get_wrapped_mint_address_with_seed_for_program *)
Definition get_wrapped_mint_address_with_seed_for_program (e : env) (u wtp prog : pubkey) : res (pubkey * N) :=
  find_program_address e (wrapped_mint_seeds u wtp) prog.
(** lib.rs:23-28 *)
Definition get_wrapped_mint_address_with_seed (e : env) (u wtp : pubkey) : res (pubkey * N) :=
  get_wrapped_mint_address_with_seed_for_program e u wtp tw_id.
(** lib.rs:73-86 *)
Definition get_wrapped_mint_address_for_program (e : env) (u wtp prog : pubkey) : res pubkey :=
  r <- get_wrapped_mint_address_with_seed_for_program e u wtp prog ;; Ok (fst r).
(** lib.rs:65-71 *)
Definition get_wrapped_mint_address (e : env) (u wtp : pubkey) : res pubkey :=
  get_wrapped_mint_address_for_program e u wtp tw_id.

(** lib.rs:88-92 *)
Definition wrapped_mint_authority_seeds (w : pubkey) : list atom := str_atoms "authority" ++ [inr w].
(** lib.rs:94-103 *)
Definition wrapped_mint_authority_signer_seeds (w : pubkey) (bump : N) : list atom :=
  str_atoms "authority" ++ [inr w] ++ [inl bump].
(** lib.rs:109-114 *)
Definition get_wrapped_mint_authority_with_seed_for_program (e : env) (w prog : pubkey) : res (pubkey * N) :=
  find_program_address e (wrapped_mint_authority_seeds w) prog.
(** lib.rs:105-107 *)
Definition get_wrapped_mint_authority_with_seed (e : env) (w : pubkey) : res (pubkey * N) :=
  get_wrapped_mint_authority_with_seed_for_program e w tw_id.
(** lib.rs:121-128 *)
Definition get_wrapped_mint_authority_for_program (e : env) (w prog : pubkey) : res pubkey :=
  r <- get_wrapped_mint_authority_with_seed_for_program e w prog ;; Ok (fst r).
(** lib.rs:116-119 *)
Definition get_wrapped_mint_authority (e : env) (w : pubkey) : res pubkey :=
  get_wrapped_mint_authority_for_program e w tw_id.

(** lib.rs:130-134 *)
Definition backpointer_seeds (w : pubkey) : list atom := str_atoms "backpointer" ++ [inr w].
(** lib.rs:136-145 *)
Definition backpointer_signer_seeds (w : pubkey) (bump : N) : list atom :=
  str_atoms "backpointer" ++ [inr w] ++ [inl bump].
(** lib.rs:153-161 *)
Definition get_wrapped_mint_backpointer_address_with_seed_for_program (e : env) (w prog : pubkey) : res (pubkey * N) :=
  find_program_address e (backpointer_seeds w) prog.
(** lib.rs:147-151 *)
Definition get_wrapped_mint_backpointer_address_with_seed (e : env) (w : pubkey) : res (pubkey * N) :=
  get_wrapped_mint_backpointer_address_with_seed_for_program e w tw_id.
(** lib.rs:168-175 *)
Definition get_wrapped_mint_backpointer_address_for_program (e : env) (w prog : pubkey) : res pubkey :=
  r <- get_wrapped_mint_backpointer_address_with_seed_for_program e w prog ;; Ok (fst r).
(** lib.rs:163-166 *)
Definition get_wrapped_mint_backpointer_address (e : env) (w : pubkey) : res pubkey :=
  get_wrapped_mint_backpointer_address_for_program e w tw_id.

(** lib.rs:209-221 *)
Definition canonical_pointer_seeds (u : pubkey) : list atom := str_atoms "canonical_pointer" ++ [inr u].
(** lib.rs:223-228 *)
Definition canonical_pointer_signer_seeds (u : pubkey) (bump : N) : list atom :=
  str_atoms "canonical_pointer" ++ [inr u] ++ [inl bump].
(** lib.rs:211-221 *)
Definition get_canonical_pointer_address_with_seed_for_program (e : env) (u prog : pubkey) : res (pubkey * N) :=
  find_program_address e (canonical_pointer_seeds u) prog.
(** lib.rs:230-233 *)
Definition get_canonical_pointer_address_with_seed (e : env) (u : pubkey) : res (pubkey * N) :=
  get_canonical_pointer_address_with_seed_for_program e u tw_id.
(** lib.rs:240-247 *)
Definition get_canonical_pointer_address_for_program (e : env) (u prog : pubkey) : res pubkey :=
  r <- get_canonical_pointer_address_with_seed_for_program e u prog ;; Ok (fst r).
(** lib.rs:235-238 *)
Definition get_canonical_pointer_address (e : env) (u : pubkey) : res pubkey :=
  get_canonical_pointer_address_for_program e u tw_id.

(** get_associated_token_address_with_program_id (external crate):
    seeds [wallet, token_program, mint] under the ATA program. *)
Definition ata_seeds (wallet mint tokprog : pubkey) : list atom := [inr wallet; inr tokprog; inr mint].
Definition get_associated_token_address (e : env) (wallet mint tokprog : pubkey) : res pubkey :=
  r <- find_program_address e (ata_seeds wallet mint tokprog) ata_id ;; Ok (fst r).

(** lib.rs:191-207 *)
Definition get_escrow_address_for_program (e : env) (u utp wtp prog : pubkey) : res pubkey :=
  w <- get_wrapped_mint_address_for_program e u wtp prog ;;
  a <- get_wrapped_mint_authority_for_program e w prog ;;
  get_associated_token_address e a u utp.
(** lib.rs:177-189 *)
Definition get_escrow_address (e : env) (u utp wtp : pubkey) : res pubkey :=
  get_escrow_address_for_program e u utp wtp tw_id.

(** MetaplexMetadata::find_pda (external crate): seeds ["metadata", mpl id, mint]. *)
Definition metaplex_seeds (m : pubkey) : list atom := str_atoms "metadata" ++ [inr mpl_id; inr m].
Definition metaplex_find_pda (e : env) (m : pubkey) : res (pubkey * N) :=
  find_program_address e (metaplex_seeds m) mpl_id.

(** ** The derived addresses as total functions, used in specifications.  They agree with
    the functions above whenever those return (Lemma [find_pda_ok] in PdaProofs.v). *)
Definition wrapped_mint_for (e : env) (u wtp prog : pubkey) : pubkey := pda e (wrapped_mint_seeds u wtp) prog.
Definition authority_for (e : env) (w prog : pubkey) : pubkey := pda e (wrapped_mint_authority_seeds w) prog.
Definition backpointer_for (e : env) (w prog : pubkey) : pubkey := pda e (backpointer_seeds w) prog.
Definition canonical_pointer_for (e : env) (u prog : pubkey) : pubkey := pda e (canonical_pointer_seeds u) prog.
Definition ata_of (e : env) (wallet mint tokprog : pubkey) : pubkey := pda e (ata_seeds wallet mint tokprog) ata_id.
Definition escrow_for (e : env) (u utp wtp prog : pubkey) : pubkey :=
  ata_of e (authority_for e (wrapped_mint_for e u wtp prog) prog) u utp.
Definition metaplex_of (e : env) (m : pubkey) : pubkey := pda e (metaplex_seeds m) mpl_id.
(** ... and for the official deployment. *)
Definition wrapped_mint_of (e : env) (u wtp : pubkey) : pubkey := wrapped_mint_for e u wtp tw_id.
Definition authority_of (e : env) (w : pubkey) : pubkey := authority_for e w tw_id.
Definition backpointer_of (e : env) (w : pubkey) : pubkey := backpointer_for e w tw_id.
Definition canonical_pointer_of (e : env) (u : pubkey) : pubkey := canonical_pointer_for e u tw_id.
Definition escrow_of (e : env) (u utp wtp : pubkey) : pubkey := escrow_for e u utp wtp tw_id.

(** Addresses for which only token-wrap can sign. *)
Definition is_tw_pda (k : pubkey) : bool :=
  match k with
  | PkDerived _ p => pk_eqb p tw_id
  | PkRaw _ => false
  end.
