(** * TestMetadataOwner.v — the third-party metadata program of the repository (program/test-metadata-owner). *)
From Verif Require Import Base State TokenProg.

(** lib.rs:7 NO_RETURN: the account for which the program answers nothing. *)
Definition no_return_id : pubkey := PkRaw 404.
(** The most bytes a program can return (solana runtime, MAX_RETURN_DATA); the call is aborted otherwise. *)
Definition max_return_data : N := 1024.
(** program/test-metadata-owner/src/processor.rs:22-49 (and entrypoint.rs:12-19, which unpacks the instruction and
    forwards), for the only instruction token-wrap sends, Emit with neither start nor end
    (program/src/metadata.rs:26-29), so that the slice returned is all of the metadata.  The account need not belong
    to the program; it is read as a mint with extensions. *)
Definition test_emit (p k : pubkey) (a : account) : res (option (pubkey * res token_metadata)) :=
  if pk_eqb k no_return_id then Ok None
  else
    m <- pod_unpack_mint (a_data a) ;;
    t <- of_option (ext_metadata m) (ETok ExtensionNotFound) ;;
    guard (tm_len t <=? max_return_data) EPanic ;;
    Ok (Some (p, Ok t)).
(** Program [p] is this program. *)
Definition runs_test_emit (e : env) (p : pubkey) : Prop := forall k a, e_emit e p k a = test_emit p k a.
