(** * HookSpec.v — C70: transfer hooks.

    A Token-2022 mint may name a transfer-hook program, which the token program calls in every
    transfer.  It is foreign code ([e_hook]); what it is given and what becomes of its answer is
    what C70 is about. *)
From Verif Require Import Base State TokenProg Spec HistorySpec.

(** The accounts the token library's transfer helper adds to the transfer (for a multisig and for the
    hook) were passed by the caller, with no more rights than the caller gave them; none is the
    mint, asked for as writable. *)
Definition presented (accounts : list info) (u : pubkey) (extra : list info) : Prop :=
  forall i, In i extra ->
    In (i_key i) (map i_key accounts) /\
    (i_writable i = true -> writable accounts (i_key i) /\ i_key i <> u) /\
    (i_signer i = true -> signed accounts (i_key i)).

(** The signing members of a multisig are among them, as signers, and no other member is. *)
Definition members_presented (l : ledger) (owner : pubkey) (signers : list pubkey) (extra : list info) : Prop :=
  (forall k, In k signers -> exists i, In i extra /\ i_key i = k /\ i_signer i = true) /\
  (forall m i, a_data (l owner) = DMultisig m -> In i extra -> In (i_key i) (ms_signers m) -> In (i_key i) signers).

(** The hook of mint [m], if it has one, lets [auth] transfer [n] tokens from [src] to [dst]: called on
    these four accounts and the ones added, when at most [src] and [dst] have changed since [l], it accepts, moves no lamports
    and leaves the accounts [spared] alone. *)
Definition hook_agrees (e : env) (m : mint) (n : N) (l : ledger) (src mnt dst auth : pubkey) (extra : list info) (spared : list pubkey) : Prop :=
  forall p, ext_hook m = Some p ->
  forall four l1, map i_key four = [src; mnt; dst; auth] -> (forall k, k <> src -> k <> dst -> l1 k = l k) ->
  exists l2, e_hook e p (four ++ extra) n l1 = Ok l2 /\
    (forall k, a_lamports (l2 k) = a_lamports (l1 k)) /\ (forall k, In k spared -> l2 k = l1 k).

(** The helper finds what it needs among the accounts after the ninth, and the hook agrees. *)
Definition transfer_served (e : env) (accounts : list info) (l : ledger) (m : mint) (n : N) (src mnt dst auth : pubkey) (spared : list pubkey) : Prop :=
  exists extra, e_extra e l accounts (skipn 9 accounts) = Ok extra /\ presented accounts mnt extra /\
    hook_agrees e m n l src mnt dst auth extra spared.

(** A mint that can be transferred as far as the mint is concerned (its hook may still refuse). *)
Definition unpaused (l : ledger) (p u : pubkey) (m : mint) : Prop := mint_account l u p m /\ ext_paused m = false.
