(** * Ata.v — the associated-token-account program (external), as far as it matters here: the
    escrow of a wrapped mint is the associated token account of its authority
    (/repo/program/src/lib.rs:177-207 derive the address; clients/cli/src/create_escrow_account.rs:87-150
    and clients/js/src/utilities.ts create it). *)
From Verif Require Import Base Codec State Pda TokenProg Cpi.

(** Associated token addresses for SPL Token and Token-2022.  Only the associated-token program can
    sign for them. *)
Definition is_ata (k : pubkey) : bool :=
  match k with
  | PkDerived [inr _; inr q; inr _; inl _] p => pk_eqb p ata_id && (pk_eqb q spl_token_id || pk_eqb q t22_id)
  | _ => false
  end.

(** Create / CreateIdempotent on an account that does not exist yet: the address is allocated to the
    size the mint's extensions demand, assigned to the token program and initialised with an
    immutable owner.  SIMPLIFICATIONS: the rent is paid beforehand (by any transfer of lamports to the
    address); RecoverNested, which needs the wallet's signature, is not modelled. *)
Definition ata_create (e : env) (p wallet mnt : pubkey) (l : ledger) : res ledger :=
  let k := ata_of e wallet mnt p in
  guard (pk_eqb (a_owner (l k)) system_id) EInvalidAccountOwner ;;
  guard (pk_eqb (a_owner (l mnt)) p) EInvalidAccountOwner ;;
  m <- unpack_mint p (a_data (l mnt)) ;;
  let space := tok_space (init_account_exts p m true) in
  tok_init_account e p [meta_w k false; meta_r mnt false] k mnt wallet true
    (upd l k (mkAcc (a_lamports (l k)) (DRaw (zeros space)) p)).
