(** * OrdersSpec.v — the vocabulary of C66: many users wrapping and unwrapping the same mint at once. *)
From Verif Require Import Base Codec State Pda TokenProg Cpi Ata Meta Processor PdaProofs Spec HistorySpec LocalSpec.

(** ** An order: a Wrap or Unwrap somebody sends.  [o_source] pays (unwrapped tokens for a Wrap, wrapped ones
    for an Unwrap), [o_recipient] receives, [o_authority] (owner, delegate or multisig) authorises. *)
Inductive side := Wraps | Unwraps.
Record order := mkOrder {
  o_env : env; o_accounts : list info; o_side : side; o_amount : N;
  o_source : pubkey; o_recipient : pubkey; o_authority : pubkey }.
Definition o_instruction (o : order) : tw_instr (list N) :=
  match o_side o with Wraps => Wrap (o_amount o) | Unwraps => Unwrap (o_amount o) end.
(** It goes through on [l], leaving [l']. *)
Definition goes_through (o : order) (l l' : ledger) : Prop := succeeds (o_env o) (o_accounts o) (o_instruction o) l l'.
(** All of them go through, one after the other. *)
Inductive filled : list order -> ledger -> ledger -> Prop :=
| f_none l : filled [] l l
| f_next o os l l1 l2 : goes_through o l l1 -> filled os l1 l2 -> filled (o :: os) l l2.

(** ** What the users of a wrapped mint share: the escrow account and the wrapped mint.  Two ledgers look alike
    to an order if they agree on all accounts it names, up to the escrow's balance (with fees withheld on it, and
    lamports) and the wrapped mint's supply. *)
Definition no_balance (t : tokacc) : tokacc :=
  mkTok (t_mint t) (t_owner t) 0 (t_delegate t) (t_delegated t) (t_state t) (t_native t) (t_close t)
        (map (fun x => match x with AxTransferFeeAmount _ => AxTransferFeeAmount 0 | _ => x end) (t_exts t)).
Definition no_supply (m : mint) : mint := mkMint (m_auth m) 0 (m_decimals m) (m_init m) (m_freeze m) (m_exts m) (m_len m).
Definition up_to_turnover (ks : list pubkey) (esc w : pubkey) (l1 l2 : ledger) : Prop :=
  (forall k, In k ks -> k <> esc -> k <> w -> l2 k = l1 k) /\
  (a_owner (l2 esc) = a_owner (l1 esc) /\
   exists t1 t2, a_data (l1 esc) = DTok t1 /\ a_data (l2 esc) = DTok t2 /\ no_balance t2 = no_balance t1) /\
  (a_owner (l2 w) = a_owner (l1 w) /\
   exists m1 m2, a_data (l1 w) = DMint m1 /\ a_data (l2 w) = DMint m2 /\ no_supply m2 = no_supply m1).
(** The two helpers of the token library that select further accounts for a transfer (multisig members) do not
    look at balances and supplies. *)
Definition ignores_turnover (e : env) : Prop :=
  forall accounts esc w l1 l2, up_to_turnover (keys accounts) esc w l1 l2 ->
    (forall more, e_extra e l2 accounts more = e_extra e l1 accounts more) /\
    (forall k more, In k (keys accounts) -> incl more accounts -> e_multisig e l2 k more = e_multisig e l1 k more).

(** ** The order concerns the pair: unwrapped mint [u] of program [utp], wrapped by program [wtp]. *)
Definition order_on (e0 : env) (u utp wtp : pubkey) (o : order) : Prop :=
  let w := wrapped_mint_of e0 u wtp in let a := authority_of e0 w in let esc := escrow_of e0 u utp wtp in
  lawful e0 (o_env o) /\ ignores_turnover (o_env o) /\ no_tw_signer (o_accounts o) /\ o_amount o < two64 /\
  o_recipient o <> esc /\   (* it is not a gift to the escrow itself *)
  keys_are (o_accounts o)
    (match o_side o with
     | Wraps => [o_recipient o; w; a; utp; wtp; o_source o; u; esc; o_authority o]
     | Unwraps => [esc; o_recipient o; a; u; wtp; utp; o_source o; w; o_authority o]
     end).
(** Of two strangers, neither names the other's paying or receiving account. *)
Definition owns (o : order) (k : pubkey) : Prop := k = o_source o \/ k = o_recipient o.
Definition strangers (x y : order) : Prop :=
  forall k, (owns x k -> ~ In k (keys (o_accounts y))) /\ (owns y k -> ~ In k (keys (o_accounts x))).

(** ** Totals: what enters the escrow, what leaves it, and the transfer fees withheld on it. *)
Inductive turnover (mu : mint) : list order -> N -> N -> N -> Prop :=
| to_none : turnover mu [] 0 0 0
| to_wrap o os paid_in paid_out fees fee :
    o_side o = Wraps -> fee_for mu (e_epoch (o_env o)) (o_amount o) fee -> turnover mu os paid_in paid_out fees ->
    turnover mu (o :: os) (o_amount o - fee + paid_in) paid_out (fee + fees)
| to_unwrap o os paid_in paid_out fees :
    o_side o = Unwraps -> turnover mu os paid_in paid_out fees ->
    turnover mu (o :: os) paid_in (o_amount o + paid_out) fees.
(** Fees are withheld in the TransferFeeAmount extension. *)
Fixpoint withhold (fee : N) (x : list acct_ext) : list acct_ext :=
  match x with
  | [] => []
  | AxTransferFeeAmount n :: r => AxTransferFeeAmount (n + fee) :: r
  | y :: r => y :: withhold fee r
  end.
(** All wrapped amounts together. *)
Definition total_wrapped (os : list order) : N :=
  fold_right (fun o n => match o_side o with Wraps => o_amount o + n | Unwraps => n end) 0 os.

(** The escrow (now holding [te]) and the wrapped mint (now [mw]) move by such totals. *)
Definition moved (utp wtp w esc : pubkey) (te : tokacc) (mw : mint) (paid_in paid_out fees : N) (l l' : ledger) : Prop :=
  paid_out <= t_amount te + paid_in /\ paid_out <= m_supply mw + paid_in /\
  native_part te paid_out <= lamports l esc + native_part te (paid_in + fees) /\
  l' esc = mkAcc (lamports l esc + native_part te (paid_in + fees) - native_part te paid_out)
             (DTok (mkTok (t_mint te) (t_owner te) (t_amount te + paid_in - paid_out) (t_delegate te) (t_delegated te)
                          (t_state te) (t_native te) (t_close te) (withhold fees (t_exts te)))) utp /\
  l' w = mkAcc (lamports l w)
           (DMint (mkMint (m_auth mw) (m_supply mw + paid_in - paid_out) (m_decimals mw) (m_init mw) (m_freeze mw)
                          (m_exts mw) (m_len mw))) wtp.

(** ** The ledger [l'] after all of [os] went through on [l], in whatever order ([w], [esc]: wrapped mint and escrow of
    the pair). *)
Definition after_all (utp wtp w esc : pubkey) (mu : mint) (os : list order) (l l' : ledger) : Prop :=
  exists paid_in paid_out fees, turnover mu os paid_in paid_out fees /\
    (* everybody got what they would have got alone *)
    (forall o l1, In o os -> goes_through o l l1 -> l' (o_source o) = l1 (o_source o) /\ l' (o_recipient o) = l1 (o_recipient o)) /\
    (* the escrow and the supply moved by the totals *)
    (os <> [] -> exists te mw, token_account l esc utp te /\ mint_account l w wtp mw /\ moved utp wtp w esc te mw paid_in paid_out fees l l') /\
    (* nothing else changed *)
    (forall k, k <> esc \/ os = [] -> k <> w \/ os = [] -> (forall o, In o os -> ~ owns o k) -> l' k = l k).

(** ** The setting: a reachable state, an unwrapped mint that never had a permanent delegate and has no transfer hook,
    and orders of strangers on it.  (For wrapped SOL, whose amount is not bounded by a supply, everything wrapped must fit
    into the escrow's 64-bit balance.) *)
Definition order_book (e0 : env) (past : list ledger) (l : ledger) (u utp wtp : pubkey) (mu : mint) (os : list order) : Prop :=
  history e0 past l /\ ever (no_permanent_delegate u) past l /\ spl_or_t22 utp /\ spl_or_t22 wtp /\
  mint_account l u utp mu /\ ext_hook mu = None /\
  Forall (order_on e0 u utp wtp) os /\ ForallOrdPairs strangers os /\
  (native_mint u -> balance l (escrow_of e0 u utp wtp) + total_wrapped os < two64).
