(** * CliRunSpec.v — the vocabulary of the property about running commands, signing offline and trying out. *)
From Verif Require Import Base Codec State Pda TokenProg Cpi Ata Meta Processor Builders Cli Js CliRun PdaProofs Spec HistorySpec CliSpec JsSpec.

(** The signing options of a command line, and the command line with other ones. *)
Definition options (c : command_line) : option signing :=
  match c with LineWrap _ _ _ _ _ _ o => Some o | LineUnwrap _ _ _ _ _ _ o => Some o | _ => None end.
Definition with_options (o : signing) (c : command_line) : command_line :=
  match c with
  | LineWrap s wtp n mint r utp _ => LineWrap s wtp n mint r utp o
  | LineUnwrap s r n mint wtp utp _ => LineUnwrap s r n mint wtp utp o
  | c => c
  end.
(** Only sign, with the own keys. *)
Definition just_sign (o : signing) : signing := mkSigning (so_authority o) (so_multisig o) (so_blockhash o) [] true.
(** [m] is what the command would print to be signed. *)
Definition message_of (e : env) (net : network) (cfg : config) (c : command_line) (l : ledger) (m : message) : Prop :=
  exists o ss, options c = Some o /\ snd (run_line e 0 net cfg (with_options (just_sign o) c) l) = Signed m ss.
(** The signers named on the command line, by key pair or by address; the keys whose pair is there. *)
Definition seated (cfg : config) (o : signing) : list signer :=
  cf_payer cfg :: match so_authority o with Some s => [s] | None => [] end ++ so_multisig o.
Definition knows (cfg : config) (o : signing) (k : pubkey) : Prop := exists s, In s (seated cfg o) /\ sg_key s = k /\ sg_signs s = true.
(** Key [k] signed [m]: its pair was there, or its signature over [m] was given. *)
Definition endorsed (cfg : config) (o : signing) (m : message) (k : pubkey) : Prop := knows cfg o k \/ In (k, SigOf k m) (so_signatures o).
(** The same people are named in the same places. *)
Definition same_people (cfg : config) (o : signing) (cfg' : config) (o' : signing) : Prop :=
  sg_key (cf_payer cfg) = sg_key (cf_payer cfg') /\ option_map sg_key (so_authority o) = option_map sg_key (so_authority o') /\
  map sg_key (so_multisig o) = map sg_key (so_multisig o').

(** Somebody who signed: his machine, his command line, the chain as he saw it, and what was printed. *)
Record participant := mkParticipant { pt_net : network; pt_cfg : config; pt_line : command_line; pt_ledger : ledger; pt_printed : list (pubkey * signature) }.
Definition printed (e : env) (fee : N) (p : participant) (m : message) : Prop :=
  snd (run_line e fee (pt_net p) (pt_cfg p) (pt_line p) (pt_ledger p)) = Signed m (pt_printed p).
(** He holds the pair of [k], and never names [k] both by pair and by address. *)
Definition holds_pair (p : participant) (k : pubkey) : Prop := exists o, options (pt_line p) = Some o /\ knows (pt_cfg p) o k.
Definition tidy (cfg : config) (c : command_line) : Prop := forall o, options c = Some o -> consistent (seated cfg o).
