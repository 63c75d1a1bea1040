(** * PropCanonical.v — C29: the canonical deployment pointer.

    Account order: [mint authority; pointer; unwrapped mint; system program].  [e_key_of_bytes e bs] is the
    key written as the 32 bytes [bs]. *)
From Verif Require Import Base Codec State Pda TokenProg Cpi Meta Processor Builders PdaProofs Spec Demo Demo2 PointerProofs.

(** C29: only the current mint authority of a genuine mint, who signed, sets the pointer; nothing else changes. *)
Theorem C29_pointer : forall e accounts bs l l' a p u x,
  keys_are accounts [a; p; u; x] -> expressible (SetCanonicalPointer bs) -> succeeds e accounts (SetCanonicalPointer bs) l l' ->
  signed accounts a /\ p = canonical_pointer_of e u /\ (writable accounts p \/ l p = mkAcc (lamports l p) (DKey (e_key_of_bytes e bs)) tw_id) /\
  (exists prog m, spl_or_t22 prog /\ mint_account l u prog m /\ m_auth m = Some a) /\
  (no_data l p /\ a_owner (l p) = system_id /\ e_rent e 32 <= lamports l p \/
   data_len (a_data (l p)) = 32 /\ a_owner (l p) = tw_id) /\
  l' p = mkAcc (lamports l p) (DKey (e_key_of_bytes e bs)) tw_id /\ forall k, k <> p -> l' k = l k.
Proof. exact pointer_exact_l. Qed.
Print Assumptions C29_pointer.

(** C29: everybody else is refused; so is everybody when the mint has no authority.  (The third hypothesis: the signer flag is the one of the first account, as after runtime deduplication.)  In particular the authority itself must sign: the members of a multisig authority cannot act for it. *)
Theorem C29_refused : forall e accounts bs l a p u x prog m,
  keys_are accounts [a; p; u; x] -> expressible (SetCanonicalPointer bs) -> spl_or_t22 prog -> mint_account l u prog m ->
  (signed accounts a -> exists i r, accounts = i :: r /\ i_signer i = true) ->
  (~ signed accounts a -> fails e accounts (SetCanonicalPointer bs) l EMissingRequiredSignature) /\
  (signed accounts a -> m_auth m = None -> fails e accounts (SetCanonicalPointer bs) l EInvalidAccountData) /\
  (signed accounts a -> forall b, m_auth m = Some b -> b <> a -> fails e accounts (SetCanonicalPointer bs) l EIncorrectAuthority).
Proof. exact pointer_refused_l. Qed.
Print Assumptions C29_refused.

(** C29: the authority can set the pointer, the first time if the account is funded, and again at any time. *)
Theorem C29_live : forall e i rest bs l a p u prog m,
  let accounts := i :: rest in
  keys_are accounts [a; p; u; system_id] -> expressible (SetCanonicalPointer bs) -> i_signer i = true -> writable accounts p ->
  derivable e (canonical_pointer_seeds u) tw_id -> p = canonical_pointer_of e u ->
  spl_or_t22 prog -> mint_account l u prog m -> m_auth m = Some a ->
  (no_data l p /\ a_owner (l p) = system_id /\ e_rent e 32 <= lamports l p \/
   data_len (a_data (l p)) = 32 /\ a_owner (l p) = tw_id) ->
  exists l', succeeds e accounts (SetCanonicalPointer bs) l l'.
Proof. exact pointer_live_l. Qed.
Print Assumptions C29_live.

(** ** The hypotheses are met: set the pointer, then change it. *)
Definition c_bs (n : N) : list N := n :: repeat 0 31.
Definition c_ptr : pubkey := canonical_pointer_of demo_env d_u.
Definition c_ledger : ledger := upd demo0 c_ptr (mkAcc 4000 DEmpty system_id).
Definition c_set n := build_set_canonical_pointer tw_id d_mintauth c_ptr d_u (c_bs n).
Example C29_nonvacuous : exists l1 l2,
  keys_are (tx_metas (c_set 7)) [d_mintauth; c_ptr; d_u; system_id] /\ expressible (SetCanonicalPointer (c_bs 7)) /\
  succeeds demo_env (tx_metas (c_set 7)) (SetCanonicalPointer (c_bs 7)) c_ledger l1 /\ a_data (l1 c_ptr) = DKey (PkRaw 1007) /\
  succeeds demo_env (tx_metas (c_set 8)) (SetCanonicalPointer (c_bs 8)) l1 l2 /\ a_data (l2 c_ptr) = DKey (PkRaw 1008).
Proof.
  eexists. eexists. split; [exists []; vm_compute; reflexivity|]. split; [split; [reflexivity|repeat constructor]|].
  split; [vm_compute; reflexivity|]. split; [vm_compute; reflexivity|]. split; vm_compute; reflexivity.
Qed.
(** A mint controlled by a 2-of-2 multisig: the members' signatures do not suffice, the signature of the
    multisig address alone does. *)
Definition c_multi : ledger := upd c_ledger d_mintauth (mkAcc 5000 (DMultisig (mkMultisig 2 [d_alice; d_bob])) spl_token_id).
Example C29_multisig :
  let members := [mkInfo d_mintauth false false; mkInfo c_ptr false true; mkInfo d_u false false; mkInfo system_id false false;
                  mkInfo d_alice true false; mkInfo d_bob true false] in
  signed_by members c_multi spl_token_id d_mintauth /\
  fails demo_env members (SetCanonicalPointer (c_bs 7)) c_multi EMissingRequiredSignature /\
  exists l', succeeds demo_env (tx_metas (c_set 7)) (SetCanonicalPointer (c_bs 7)) c_multi l'.
Proof.
  cbv zeta. split; [|split; [vm_compute; reflexivity|eexists; vm_compute; reflexivity]].
  right. eexists. split; [vm_compute; reflexivity|]. split; [vm_compute; reflexivity|]. vm_compute. discriminate.
Qed.
