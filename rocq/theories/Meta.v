(** * Meta.v — metadata resolution and conversion (metadata.rs, metaplex.rs). *)
From Verif Require Import Base Codec State Pda TokenProg Cpi.

(** ** Rust integer formatting and parsing *)
Definition digit_char (d : N) : ascii := ascii_of_N (48 + d).
(** [u16::to_string] / [u8::to_string]; 20 digits suffice for every u64. *)
Fixpoint show_dec_fuel (fuel : nat) (n : N) (acc : string) : string :=
  match fuel with
  | O => acc
  | S f =>
      let acc' := String (digit_char (n mod 10)) acc in
      if n / 10 =? 0 then acc' else show_dec_fuel f (n / 10) acc'
  end.
Definition show_dec (n : N) : string := show_dec_fuel 20 n EmptyString.
(** [bool::to_string]. *)
Definition show_bool (b : bool) : string := if b then "true" else "false".

Definition digit_val (c : ascii) : option N :=
  let n := N_of_ascii c in
  if (48 <=? n) && (n <=? 57) then Some (n - 48) else None.
Fixpoint parse_digits (max acc : N) (s : string) : option N :=
  match s with
  | EmptyString => Some acc
  | String c r =>
      match digit_val c with
      | None => None
      | Some d => let acc' := acc * 10 + d in if acc' <=? max then parse_digits max acc' r else None
      end
  end.
(** [str::parse::<u16>]: an optional '+', then at least one digit, overflow is an error. *)
Definition parse_u16 (s : string) : option N :=
  match s with
  | EmptyString => None
  | String c r =>
      if Ascii.eqb c "+" then
        match r with EmptyString => None | _ => parse_digits 65535 0 r end
      else parse_digits 65535 0 s
  end.

(** ** metaplex.rs *)
Definition unverify (c : creator) : creator := mkCreator (cr_address c) false (cr_share c).

(** metaplex.rs:18-93 extract_additional_metadata. *)
Definition opt_entry {A} (name : string) (show : A -> string) (o : option A) : list (string * string) :=
  match o with Some a => [(name, show a)] | None => [] end.
Definition extract_additional_metadata (e : env) (m : mpl_metadata) : list (string * string) :=
  [ ("key"%string, e_json_key e (mx_key m));
    ("seller_fee_basis_points"%string, show_dec (mx_sfbp m));
    ("primary_sale_happened"%string, show_bool (mx_primary_sale m));
    ("is_mutable"%string, show_bool (mx_is_mutable m)) ]
  ++ match mx_creators m with
     | Some ((_ :: _) as cs) => [("creators"%string, e_json_creators e (map unverify cs))]
     | _ => []
     end
  ++ opt_entry "edition_nonce" show_dec (mx_edition_nonce m)
  ++ opt_entry "token_standard" (e_json_token_standard e) (mx_token_standard m)
  ++ opt_entry "collection" (e_json_collection e) (mx_collection m)
  ++ opt_entry "uses" (e_json_uses e) (mx_uses m)
  ++ opt_entry "collection_details" (e_json_collection_details e) (mx_collection_details m)
  ++ opt_entry "programmable_config" (e_json_programmable_config e) (mx_programmable_config m).

(** metaplex.rs:96-114 metaplex_to_token_2022_metadata; MetaplexMetadata::safe_deserialize
    succeeds exactly on Metaplex metadata. *)
Definition metaplex_to_token_2022_metadata (e : env) (l : ledger) (u md : pubkey) : res token_metadata :=
  match a_data (l md) with
  | DMpl m =>
      Ok (mkTM (if pk_eqb (mx_update_authority m) system_id then None else Some (mx_update_authority m))
               u (mx_name m) (mx_symbol m) (mx_uri m) (extract_additional_metadata e m))
  | _ => Err EInvalidAccountData
  end.

(** metaplex.rs:117-165 token_2022_metadata_to_metaplex: the loop over additional fields, the
    accumulator being (creators, seller fee, collection, uses). *)
Definition mpl_acc : Type := option (list creator) * N * option collection * option uses.
Definition convert_field (e : env) (kv : string * string) (acc : mpl_acc) : res mpl_acc :=
  let '(creators, fee, coll, us) := acc in
  let '(k, v) := kv in
  if String.eqb k "creators" then
    cs <- of_option (e_parse_creators e v) EInvalidAccountData ;;
    Ok (Some (map unverify cs), fee, coll, us)
  else if String.eqb k "seller_fee_basis_points" then
    f <- of_option (parse_u16 v) EInvalidAccountData ;;
    Ok (creators, f, coll, us)
  else if String.eqb k "collection" then
    c <- of_option (e_parse_collection e v) EInvalidAccountData ;;
    Ok (creators, fee, Some c, us)
  else if String.eqb k "uses" then
    x <- of_option (e_parse_uses e v) EInvalidAccountData ;;
    Ok (creators, fee, coll, Some x)
  else Ok acc.
Fixpoint convert_fields (e : env) (kvs : list (string * string)) (acc : mpl_acc) : res mpl_acc :=
  match kvs with
  | [] => Ok acc
  | kv :: r => acc' <- convert_field e kv acc ;; convert_fields e r acc'
  end.
Definition token_2022_metadata_to_metaplex (e : env) (t : token_metadata) : res data_v2 :=
  acc <- convert_fields e (tm_additional t) (None, 0, None, None) ;;
  let '(creators, fee, coll, us) := acc in
  Ok (mkDataV2 (tm_name t) (tm_symbol t) (tm_uri t) fee creators coll us).

(** ** metadata.rs *)

(** metadata.rs:22-39 cpi_emit_and_decode.  The Emit CPI gets one read-only account, so it
    cannot change the ledger; its return data is the oracle [e_emit]. *)
Definition cpi_emit_and_decode (e : env) (c : ctx) (l : ledger) (owner_prog md : pubkey) : res token_metadata :=
  guard (has_key (c_infos c) owner_prog && has_key (c_infos c) md) (ERt MissingAccount) ;;
  r <- e_emit e owner_prog md (l md) ;;
  match r with
  | Some (program_key, d) =>
      if pk_eqb program_key owner_prog then d else Err (ETw ExternalProgramReturnedNoData)
  | None => Err (ETw ExternalProgramReturnedNoData)
  end.

(** metadata.rs:41-54 read_metaplex_for_mint. *)
Definition read_metaplex_for_mint (e : env) (l : ledger) (u : pubkey) (src : option info) : res token_metadata :=
  md <- of_option src ENotEnoughAccountKeys ;;
  guard (pk_eqb (a_owner (l (i_key md))) mpl_id) EInvalidAccountOwner ;;
  p <- metaplex_find_pda e u ;;
  guard (pk_eqb (i_key md) (fst p)) (ETw MetaplexMetadataMismatch) ;;
  metaplex_to_token_2022_metadata e l u (i_key md).

(** metadata.rs:66-111 resolve_token_2022_source_metadata. *)
Definition resolve_token_2022_source_metadata (e : env) (c : ctx) (l : ledger) (u : pubkey)
    (src owner_prog : option info) : res token_metadata :=
  m <- pod_unpack_mint (a_data (l u)) ;;
  match ext_pointer m with
  | None => read_metaplex_for_mint e l u src
  | Some (_, addr) =>
      a <- of_option addr (ETw MetadataPointerUnset) ;;
      if pk_eqb a u then of_option (ext_metadata m) (ETok ExtensionNotFound)
      else
        md <- of_option src ENotEnoughAccountKeys ;;
        guard (pk_eqb (i_key md) a) (ETw MetadataPointerMismatch) ;;
        if pk_eqb (a_owner (l (i_key md))) t22_id then Err EInvalidAccountData
        else if pk_eqb (a_owner (l (i_key md))) mpl_id then
          metaplex_to_token_2022_metadata e l u (i_key md)
        else
          op <- of_option owner_prog ENotEnoughAccountKeys ;;
          guard (pk_eqb (i_key op) (a_owner (l (i_key md)))) EInvalidAccountOwner ;;
          cpi_emit_and_decode e c l (i_key op) (i_key md)
  end.

(** metadata.rs:114-132 extract_token_metadata. *)
Definition extract_token_metadata (e : env) (c : ctx) (l : ledger) (u : pubkey) (src owner_prog : option info) : res token_metadata :=
  if pk_eqb (a_owner (l u)) t22_id then resolve_token_2022_source_metadata e c l u src owner_prog
  else if pk_eqb (a_owner (l u)) spl_token_id then read_metaplex_for_mint e l u src
  else Err EIncorrectProgramId.
