(** * Codec.v — wire format of instructions and error codes. *)
From Verif Require Import Base.

(** Instructions, instruction.rs:13-200.  The key type is a parameter: on the wire a
    key is 32 bytes ([list N]); the processor works on symbolic keys. *)
Inductive tw_instr (K : Type) :=
| CreateMint (idempotent : bool)
| Wrap (amount : N)
| Unwrap (amount : N)
| CloseStuckEscrow
| SyncMetadataToToken2022
| SyncMetadataToSplToken
| SetCanonicalPointer (program_id : K).
Arguments CreateMint {K} _.
Arguments Wrap {K} _.
Arguments Unwrap {K} _.
Arguments CloseStuckEscrow {K}.
Arguments SyncMetadataToToken2022 {K}.
Arguments SyncMetadataToSplToken {K}.
Arguments SetCanonicalPointer {K} _.

Definition map_instr {K L} (f : K -> L) (i : tw_instr K) : tw_instr L :=
  match i with
  | CreateMint b => CreateMint b
  | Wrap a => Wrap a
  | Unwrap a => Unwrap a
  | CloseStuckEscrow => CloseStuckEscrow
  | SyncMetadataToToken2022 => SyncMetadataToToken2022
  | SyncMetadataToSplToken => SyncMetadataToSplToken
  | SetCanonicalPointer k => SetCanonicalPointer (f k)
  end.

(** [u64::to_le_bytes] / [u64::from_le_bytes] for [n] bytes (Rust core). *)
Fixpoint to_le (n : nat) (x : N) : list N :=
  match n with
  | O => []
  | S n' => x mod 256 :: to_le n' (x / 256)
  end.
Fixpoint from_le (l : list N) : N :=
  match l with
  | [] => 0
  | b :: r => b + 256 * from_le r
  end.

(** instruction.rs:205-236 [TokenWrapInstruction::pack]. *)
Definition pack (i : tw_instr (list N)) : list N :=
  match i with
  | CreateMint idempotent => [0; if idempotent then 1 else 0]
  | Wrap amount => 1 :: to_le 8 amount
  | Unwrap amount => 2 :: to_le 8 amount
  | CloseStuckEscrow => [3]
  | SyncMetadataToToken2022 => [4]
  | SyncMetadataToSplToken => [5]
  | SetCanonicalPointer k => 6 :: k
  end.

(** [rest.try_into().unwrap()] into [[u8; n]]: panics on a length mismatch. *)
Definition try_into_array (n : nat) (l : list N) : res (list N) :=
  if Nat.eqb (length l) n then Ok l else Err EPanic.

(** instruction.rs:240-267 [TokenWrapInstruction::unpack]; match arms in order, guards
    included.  [rest[0]] is an indexing that panics on an empty slice. *)
Definition unpack (input : list N) : res (tw_instr (list N)) :=
  match input with
  | [] => Err EInvalidInstructionData
  | tag :: rest =>
      if (tag =? 0) && Nat.eqb (length rest) 1 then
        match rest with
        | [] => Err EPanic
        | b :: _ =>
            if b =? 0 then Ok (CreateMint false)
            else if b =? 1 then Ok (CreateMint true)
            else Err EInvalidInstructionData
        end
      else if (tag =? 1) && Nat.eqb (length rest) 8 then
        a <- try_into_array 8 rest ;; Ok (Wrap (from_le a))
      else if (tag =? 2) && Nat.eqb (length rest) 8 then
        a <- try_into_array 8 rest ;; Ok (Unwrap (from_le a))
      else if (tag =? 3) && Nat.eqb (length rest) 0 then Ok CloseStuckEscrow
      else if (tag =? 4) && Nat.eqb (length rest) 0 then Ok SyncMetadataToToken2022
      else if (tag =? 5) && Nat.eqb (length rest) 0 then Ok SyncMetadataToSplToken
      else if (tag =? 6) && Nat.eqb (length rest) 32 then
        a <- try_into_array 32 rest ;; Ok (SetCanonicalPointer a)
      else Err EInvalidInstructionData
  end.

(** ** Error codes *)

(** error.rs:72-76 [e as u32]. *)
Definition tw_error_code (e : tw_error) : N :=
  match e with
  | WrappedMintMismatch => 0 | BackpointerMismatch => 1 | ZeroWrapAmount => 2
  | MintAuthorityMismatch => 3 | EscrowOwnerMismatch => 4 | InvalidWrappedMintOwner => 5
  | InvalidBackpointerOwner => 6 | EscrowMismatch => 7 | EscrowInGoodState => 8
  | UnwrappedMintHasNoMetadata => 9 | MetaplexMetadataMismatch => 10
  | MetadataPointerMissing => 11 | MetadataPointerUnset => 12 | MetadataPointerMismatch => 13
  | ExternalProgramReturnedNoData => 14 | NoSyncingToToken2022 => 15
  end.
(** [impl From<TokenWrapError> for ProgramError]. *)
Definition ETw (e : tw_error) : error := ECustom (tw_error_code e).

(** num_derive's [FromPrimitive::from_u32]: compares against each discriminant in turn. *)
Definition all_tw_errors : list tw_error :=
  [ WrappedMintMismatch; BackpointerMismatch; ZeroWrapAmount; MintAuthorityMismatch;
    EscrowOwnerMismatch; InvalidWrappedMintOwner; InvalidBackpointerOwner; EscrowMismatch;
    EscrowInGoodState; UnwrappedMintHasNoMetadata; MetaplexMetadataMismatch;
    MetadataPointerMissing; MetadataPointerUnset; MetadataPointerMismatch;
    ExternalProgramReturnedNoData; NoSyncingToToken2022 ].
(** error.rs:78-84 [TryFrom<u32>]. *)
Definition tw_error_of_code (v : N) : res tw_error :=
  of_option (find (fun e => tw_error_code e =? v) all_tw_errors) EInvalidArgument.

(** error.rs:86-107 [ToStr]: the name logged for each error. *)
Definition tw_error_str (e : tw_error) : string :=
  match e with
  | WrappedMintMismatch => "Error: WrappedMintMismatch"
  | BackpointerMismatch => "Error: BackpointerMismatch"
  | ZeroWrapAmount => "Error: ZeroWrapAmount"
  | MintAuthorityMismatch => "Error: MintAuthorityMismatch"
  | EscrowOwnerMismatch => "Error: EscrowOwnerMismatch"
  | InvalidWrappedMintOwner => "Error: InvalidWrappedMintOwner"
  | InvalidBackpointerOwner => "Error: InvalidBackpointerOwner"
  | EscrowMismatch => "Error: EscrowMismatch"
  | EscrowInGoodState => "Error: EscrowInGoodState"
  | UnwrappedMintHasNoMetadata => "Error: UnwrappedMintHasNoMetadata"
  | MetaplexMetadataMismatch => "Error: MetaplexMetadataMismatch"
  | MetadataPointerMissing => "Error: MetadataPointerMissing"
  | MetadataPointerUnset => "Error: MetadataPointerUnset"
  | MetadataPointerMismatch => "Error: MetadataPointerMismatch"
  | ExternalProgramReturnedNoData => "Error: ExternalProgramReturnedNoData"
  | NoSyncingToToken2022 => "Error: NoSyncingToToken2022"
  end.
