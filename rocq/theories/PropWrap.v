(** * PropWrap.v — C12, C13, C14, C15, C16, C20: wrapping and unwrapping.

    Account order of Wrap: [recipient wrapped account; wrapped mint; authority; unwrapped token
    program; wrapped token program; source unwrapped account; unwrapped mint; escrow; transfer
    authority].  Of Unwrap: [escrow; recipient unwrapped account; authority; unwrapped mint;
    wrapped token program; unwrapped token program; source wrapped account; wrapped mint;
    transfer authority]. *)
From Verif Require Import Base Codec State Pda TokenProg Cpi Meta Processor Builders PdaProofs Spec Demo Demo2 WrapProofs WrapProofs2.

(** C12: amount 0 is rejected with ZeroWrapAmount (custom code 2), whatever the accounts are. *)
Theorem C12_wrap_zero : forall e accounts l,
  fails e accounts (Wrap 0) l (ECustom 2).
Proof. exact wrap_zero_l. Qed.
Print Assumptions C12_wrap_zero.

Theorem C12_unwrap_zero : forall e accounts l,
  fails e accounts (Unwrap 0) l (ECustom 2).
Proof. exact unwrap_zero_l. Qed.
Print Assumptions C12_unwrap_zero.

(** C13: everything a successful Wrap changes. [s] source, [esc] escrow, [r] recipient, [w] wrapped mint. *)
Theorem C13_wrap : forall e accounts amount l l' r w a up wp s u esc ta,
  amount < two64 ->
  keys_are accounts [r; w; a; up; wp; s; u; esc; ta] ->
  succeeds e accounts (Wrap amount) l l' ->
  s <> esc ->
  exists mu mw ts te fee ts' te',
    (w = wrapped_mint_of e u wp /\ a = authority_of e w /\ esc = escrow_of e u up wp /\ spl_or_t22 up /\ spl_or_t22 wp) /\
    (mint_data l u mu /\ mint_account l w wp mw /\ m_auth mw = Some a /\
     token_account l s up ts /\ t_mint ts = u /\ token_account l esc up te /\ t_mint te = u /\ t_owner te = a) /\
    (0 < amount /\ fee_for mu (e_epoch e) amount fee /\ fee <= amount /\ amount <= t_amount ts /\
     native_part ts amount <= lamports l s) /\
    (l' s = mkAcc (lamports l s - native_part ts amount) (DTok ts') up /\
     t_amount ts' = t_amount ts - amount /\ same_account ts ts' /\ t_exts ts' = t_exts ts /\ delegation_after ts ts' ta amount) /\
    (l' esc = mkAcc (lamports l esc + native_part ts amount) (DTok te') up /\
     t_amount te' = t_amount te + (amount - fee) /\ withheld te' = withheld te + fee /\ same_account te te' /\
     t_delegate te' = t_delegate te /\ t_delegated te' = t_delegated te) /\
    l' w = mkAcc (lamports l w)
                 (DMint (mkMint (m_auth mw) (m_supply mw + (amount - fee)) (m_decimals mw) (m_init mw) (m_freeze mw) (m_exts mw) (m_len mw))) wp /\
    (exists tr, t_mint tr = w /\ a_owner (l' r) = wp /\
       a_data (l' r) = DTok (mkTok (t_mint tr) (t_owner tr) (t_amount tr + (amount - fee)) (t_delegate tr) (t_delegated tr)
                                   (t_state tr) (t_native tr) (t_close tr) (t_exts tr)) /\
       (hook_cannot_reach mu accounts l r -> token_account l r wp tr /\ lamports l' r = lamports l r)) /\
    (r <> s /\ r <> esc /\ r <> w) /\
    forall k, k <> s -> k <> esc -> k <> w -> k <> r -> hook_cannot_reach mu accounts l k -> l' k = l k.
Proof. exact wrap_exact_l. Qed.
Print Assumptions C13_wrap.

(** The remaining case: the escrow itself is the source (only its owner — token-wrap, which never signs — a delegate or a permanent delegate could authorise this).  Nothing is moved; wrapped tokens are minted all the same: see C21. *)
Theorem C13_wrap_from_escrow : forall e accounts amount l l' r w a up wp u esc ta,
  amount < two64 ->
  keys_are accounts [r; w; a; up; wp; esc; u; esc; ta] ->
  succeeds e accounts (Wrap amount) l l' ->
  exists mu mw tr fee,
    mint_data l u mu /\ mint_account l w wp mw /\ token_account l r wp tr /\ t_mint tr = w /\ r <> esc /\ w <> esc /\ r <> w /\
    fee_for mu (e_epoch e) amount fee /\ fee <= amount /\
    l' w = mkAcc (lamports l w)
                 (DMint (mkMint (m_auth mw) (m_supply mw + (amount - fee)) (m_decimals mw) (m_init mw) (m_freeze mw) (m_exts mw) (m_len mw))) wp /\
    l' r = mkAcc (lamports l r) (DTok (mkTok (t_mint tr) (t_owner tr) (t_amount tr + (amount - fee)) (t_delegate tr) (t_delegated tr)
                                   (t_state tr) (t_native tr) (t_close tr) (t_exts tr))) wp /\
    forall k, k <> w -> k <> r -> l' k = l k.
Proof. exact wrap_self_l. Qed.
Print Assumptions C13_wrap_from_escrow.

(** C14 *)
Theorem C14_wrap_consent : forall e accounts amount l l' r w a up wp s u esc ta,
  amount < two64 ->
  keys_are accounts [r; w; a; up; wp; s; u; esc; ta] ->
  succeeds e accounts (Wrap amount) l l' ->
  exists ts mu who, token_account l s up ts /\ mint_data l u mu /\ signed_by accounts l up who /\
    (who = t_owner ts \/ (t_delegate ts = Some who /\ amount <= t_delegated ts) \/ ext_permanent_delegate mu = Some who).
Proof. exact wrap_consent_l. Qed.
Print Assumptions C14_wrap_consent.

(** C15: everything a successful Unwrap changes. [s] the burned wrapped account, [r] the recipient. *)
Theorem C15_unwrap : forall e accounts amount l l' esc r a u wp up s w ta,
  amount < two64 ->
  keys_are accounts [esc; r; a; u; wp; up; s; w; ta] ->
  succeeds e accounts (Unwrap amount) l l' ->
  r <> esc ->
  exists mu mw ts te tr fee ts' te' tr',
    (w = wrapped_mint_of e u wp /\ a = authority_of e w /\ esc = escrow_of e u up wp /\ spl_or_t22 up /\ spl_or_t22 wp) /\
    (mint_data l u mu /\ mint_account l w wp mw /\ token_account l s wp ts /\ t_mint ts = w /\
     token_account l esc up te /\ t_mint te = u /\ token_account l r up tr /\ t_mint tr = u) /\
    (0 < amount /\ fee_for mu (e_epoch e) amount fee /\ fee <= amount /\ amount <= t_amount ts /\ amount <= m_supply mw /\
     amount <= t_amount te /\ native_part te amount <= lamports l esc) /\
    (l' w = mkAcc (lamports l w)
                 (DMint (mkMint (m_auth mw) (m_supply mw - amount) (m_decimals mw) (m_init mw) (m_freeze mw) (m_exts mw) (m_len mw))) wp) /\
    (l' esc = mkAcc (lamports l esc - native_part te amount) (DTok te') up /\
     t_amount te' = t_amount te - amount /\ same_account te te' /\ t_exts te' = t_exts te /\ delegation_after te te' a amount) /\
    (l' r = mkAcc (lamports l r + native_part te amount) (DTok tr') up /\
     t_amount tr' = t_amount tr + (amount - fee) /\ withheld tr' = withheld tr + fee /\ same_account tr tr' /\
     t_delegate tr' = t_delegate tr /\ t_delegated tr' = t_delegated tr) /\
    (hook_cannot_reach mu accounts l s -> l' s = mkAcc (lamports l s) (DTok ts') wp) /\
    (t_amount ts' = t_amount ts - amount /\ same_account ts ts' /\ t_exts ts' = t_exts ts /\ delegation_after ts ts' ta amount) /\
    (s <> esc /\ s <> r /\ s <> w /\ esc <> w /\ r <> w) /\
    forall k, k <> s -> k <> esc -> k <> w -> k <> r -> hook_cannot_reach mu accounts l k -> l' k = l k.
Proof. exact unwrap_exact_l. Qed.
Print Assumptions C15_unwrap.

(** The remaining case: the escrow itself as recipient. The tokens stay in escrow. *)
Theorem C15_unwrap_to_escrow : forall e accounts amount l l' a u wp up s w esc ta,
  amount < two64 ->
  keys_are accounts [esc; esc; a; u; wp; up; s; w; ta] ->
  succeeds e accounts (Unwrap amount) l l' ->
  l' esc = l esc /\ supply l w = supply l' w + amount /\ balance l s = balance l' s + amount.
Proof. exact unwrap_self_l. Qed.
Print Assumptions C15_unwrap_to_escrow.

(** C16: the only exception is tokens sent to an account owned by the system program or the incinerator, which the token programs let anybody burn (see C16_ownerless_refuted). *)
Theorem C16_unwrap_consent : forall e accounts amount l l' esc r a u wp up s w ta,
  amount < two64 ->
  keys_are accounts [esc; r; a; u; wp; up; s; w; ta] ->
  succeeds e accounts (Unwrap amount) l l' ->
  exists ts mw, token_account l s wp ts /\ mint_account l w wp mw /\
    (t_owner ts = system_id \/ t_owner ts = incinerator_id \/
     exists who, signed_by accounts l wp who /\
       (who = t_owner ts \/ (t_delegate ts = Some who /\ amount <= t_delegated ts) \/ ext_permanent_delegate mw = Some who)).
Proof. exact unwrap_consent_l. Qed.
Print Assumptions C16_unwrap_consent.

(** C20: wrapping and unwrapping the same amount restores the whole ledger.  (Hypotheses: no fee, no hook; the authorities did not act as delegates, whose allowance would be used up; source and escrow agree on being wrapped-SOL accounts, which the token programs guarantee.) *)
Theorem C20_round_trip : forall e1 e2 acc1 acc2 amount l l1 l2 r w a up wp s u esc ta1 ta2,
  amount < two64 ->
  keys_are acc1 [r; w; a; up; wp; s; u; esc; ta1] -> succeeds e1 acc1 (Wrap amount) l l1 ->
  keys_are acc2 [esc; s; a; u; wp; up; r; w; ta2] -> succeeds e2 acc2 (Unwrap amount) l1 l2 ->
  s <> esc ->
  (forall m, mint_data l u m -> ext_hook m = None /\ fee_for m (e_epoch e1) amount 0 /\ fee_for m (e_epoch e2) amount 0) ->
  (forall t, a_data (l s) = DTok t -> t_delegate t <> Some ta1) ->
  (forall t, a_data (l r) = DTok t -> t_delegate t <> Some ta2) ->
  (forall t, a_data (l esc) = DTok t -> t_delegate t <> Some a) ->
  (forall t t', a_data (l s) = DTok t -> a_data (l esc) = DTok t' -> (t_native t = None <-> t_native t' = None)) ->
  forall k, l2 k = l k.
Proof. exact round_trip_l. Qed.
Print Assumptions C20_round_trip.

(** ** The hypotheses are met: a mint with a 1% fee, 150 tokens wrapped and 100 unwrapped. *)
Example C13_nonvacuous : let l := after [x_create] demo_fee in exists l',
  keys_are (tx_metas (x_wrap 150)) [d_alice_w; d_w spl_token_id; d_a spl_token_id; t22_id; spl_token_id; d_alice_u; d_u;
                                    d_esc t22_id spl_token_id; d_alice] /\
  succeeds demo_env (tx_metas (x_wrap 150)) (Wrap 150) l l' /\ d_alice_u <> d_esc t22_id spl_token_id /\
  balance l' d_alice_u = 550 /\ balance l' (d_esc t22_id spl_token_id) = 148 /\ balance l' d_alice_w = 148 /\
  supply l' (d_w spl_token_id) = 148.
Proof.
  eexists. split; [exists []; vm_compute; reflexivity|]. split; [vm_compute; reflexivity|].
  split; [discriminate|]. vm_compute. auto.
Qed.
Example C15_nonvacuous : let l := after [x_create; x_wrap 150] demo_fee in exists l',
  keys_are (tx_metas (x_unwrap 100)) [d_esc t22_id spl_token_id; d_alice_u; d_a spl_token_id; d_u; spl_token_id; t22_id;
                                      d_alice_w; d_w spl_token_id; d_alice] /\
  succeeds demo_env (tx_metas (x_unwrap 100)) (Unwrap 100) l l' /\ d_alice_u <> d_esc t22_id spl_token_id /\
  balance l' d_alice_u = 649 /\ balance l' (d_esc t22_id spl_token_id) = 48 /\ balance l' d_alice_w = 48 /\
  supply l' (d_w spl_token_id) = 48.
Proof.
  eexists. split; [exists []; vm_compute; reflexivity|]. split; [vm_compute; reflexivity|].
  split; [discriminate|]. vm_compute. auto.
Qed.
(** A fee-free round trip. *)
Example C20_nonvacuous : let l := after [i_create] demo0 in exists l1 l2,
  succeeds demo_env (tx_metas (i_wrap 300)) (Wrap 300) l l1 /\ succeeds demo_env (tx_metas (i_unwrap 300)) (Unwrap 300) l1 l2 /\
  (forall m, mint_data l d_u m -> ext_hook m = None /\ fee_for m 5 300 0) /\ supply l1 (d_w t22_id) = 300 /\ supply l2 (d_w t22_id) = 0.
Proof.
  eexists. eexists. split; [vm_compute; reflexivity|]. split; [vm_compute; reflexivity|].
  split; [|vm_compute; auto]. intros m [H _]. vm_compute in H. injection H as <-. vm_compute. auto.
Qed.

(** C16, the exception is real: wrapped tokens in an account owned by the system program are
    burned — and their backing withdrawn — by somebody who is neither owner nor delegate. *)
Definition d_lost : ledger :=
  let l := after [i_create; i_wrap 300] demo0 in
  upd l d_alice_w (mkAcc 5000 (DTok (d_tok (d_w t22_id) system_id 300)) t22_id).
Theorem C16_ownerless_refuted : exists l' ts,
  succeeds demo_env (tx_metas (i_unwrap 100)) (Unwrap 100) d_lost l' /\
  token_account d_lost d_alice_w t22_id ts /\ t_owner ts = system_id /\ t_delegate ts = None /\
  ~ signed (tx_metas (i_unwrap 100)) system_id /\
  balance d_lost d_alice_w = 300 /\ balance l' d_alice_w = 200 /\ balance l' d_alice_u = balance d_lost d_alice_u + 100.
Proof.
  eexists. eexists. split; [vm_compute; reflexivity|]. split; [repeat split; try (vm_compute; reflexivity); discriminate|].
  split; [reflexivity|]. split; [reflexivity|].
  split; [intros (i & Hi & Hk & Hs); vm_compute in Hi; intuition (subst; discriminate)|]. vm_compute. auto.
Qed.
Print Assumptions C16_ownerless_refuted.

(** C21 (finding): the permanent delegate of the unwrapped mint wraps out of the escrow into
    itself: wrapped supply grows, the escrow does not.  Here 300 tokens back 600. *)
Definition demo_pd : ledger := d_x [MxPermanentDelegate (Some d_bob)] [] 0.
Definition x_self n := build_wrap tw_id d_bob_w (d_w spl_token_id) (d_a spl_token_id) t22_id spl_token_id
                         (d_esc t22_id spl_token_id) d_u (d_esc t22_id spl_token_id) d_bob [] n.
Theorem C21_backing_refuted : let l := after [x_create; x_wrap 300] demo_pd in exists l',
  succeeds demo_env (tx_metas (x_self 300)) (Wrap 300) l l' /\
  balance l (d_esc t22_id spl_token_id) = 300 /\ supply l (d_w spl_token_id) = 300 /\
  balance l' (d_esc t22_id spl_token_id) = 300 /\ supply l' (d_w spl_token_id) = 600 /\ balance l' d_bob_w = 300 /\
  ~ signed (tx_metas (x_self 300)) (d_a spl_token_id).
Proof.
  eexists. split; [vm_compute; reflexivity|]. repeat (split; [vm_compute; reflexivity|]).
  intros (i & Hi & Hk & Hs); vm_compute in Hi; intuition (subst; discriminate).
Qed.
Print Assumptions C21_backing_refuted.
