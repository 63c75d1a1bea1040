(** * TestHook.v — the transfer-hook program of the repository (program/test-transfer-hook), which counts its calls. *)
From Verif Require Import Base State TokenProg.

(** program/test-transfer-hook/src/processor.rs:9-28 (and entrypoint.rs:11-17, which only forwards).  The six
    [next_account_info] calls; then [counter_data[0] = counter_data[0].checked_add(1).unwrap()], which panics when the
    account has no data or the counter is at 255.  The runtime lets a program change only accounts it owns and was
    given as writable (checked here in place of the write). *)
Definition test_hook (p : pubkey) (accounts : list info) (l : ledger) : res ledger :=
  match map i_key accounts with
  | _source :: _mint :: _destination :: _authority :: _validation_state :: counter :: _ =>
      match a_data (l counter) with
      | DRaw (b :: rest) =>
          guard (b + 1 <? 256) EPanic ;;
          guard (is_wr accounts counter) (ERt ReadonlyDataModified) ;;
          guard (pk_eqb (a_owner (l counter)) p) (ERt ExternalAccountDataModified) ;;
          Ok (upd l counter (with_data (DRaw (b + 1 :: rest)) (l counter)))
      | _ => Err EPanic
      end
  | _ => Err ENotEnoughAccountKeys
  end.

(** Token-2022 (external) calls a hook with the source, the mint, the destination and the authority of the transfer, the
    validation account, and the accounts the validation account asks for.  The transfer itself lists, after its own four
    accounts, those, the hook program and the validation account (as spl_transfer_hook_interface::onchain appends them;
    program/tests/test_wrap.rs:282-287 passes them in this order).  SIMPLIFICATION: no multisig members in between. *)
Definition execute_accounts (ms : list info) : list info :=
  match rev (skipn 4 ms) with
  | validation :: _program :: asked => firstn 4 ms ++ validation :: rev asked
  | _ => []
  end.
(** Program [p] is the counter program as far as the counter [c] is concerned: called by Token-2022 with it, this happens. *)
Definition runs_test_hook (e : env) (p c : pubkey) : Prop :=
  forall ms n l, nth_error (map i_key (execute_accounts ms)) 5 = Some c -> e_hook e p ms n l = test_hook p (execute_accounts ms) l.
