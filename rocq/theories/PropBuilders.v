(** * PropBuilders.v — C31: the client-side instruction builders match the program.

    [tx_prog], [tx_metas], [tx_data]: program id, account metas and data of a built instruction.
    [runs e accounts input l l'] (Spec.v): the program, given these account metas and data, succeeds. *)
From Verif Require Import Base Codec State Pda TokenProg Cpi Meta Processor Builders Tac CodecProofs PdaProofs TokProofs FrameProofs ProcProofs Spec SpecLemmas CreateProofs CreateSpec
  SyncProofs2 GlobalProofs BuildProofs Demo Demo2.

(** ** C31: the program decodes what the builder encoded, and finds the arguments in the documented places.
    The nine base accounts of Wrap and Unwrap are followed by the multisig signers; the optional accounts of
    the Sync instructions come last. *)
Theorem C31_decoded : forall prog k0 k1 k2 k3 k4 k5 k6 k7 k8 signers amount idem bs src owner,
  amount < 2 ^ 64 -> length bs = 32%nat -> bytes bs ->
  (let ix := build_create_mint prog k0 k1 k2 k3 idem in
   tx_prog ix = prog /\ unpack (tx_data ix) = Ok (CreateMint idem) /\ map i_key (tx_metas ix) = [k0; k1; k2; system_id; k3]) /\
  (let ix := build_wrap prog k0 k1 k2 k3 k4 k5 k6 k7 k8 signers amount in
   tx_prog ix = prog /\ unpack (tx_data ix) = Ok (Wrap amount) /\ map i_key (tx_metas ix) = [k0; k1; k2; k3; k4; k5; k6; k7; k8] ++ signers) /\
  (let ix := build_unwrap prog k0 k1 k2 k3 k4 k5 k6 k7 k8 signers amount in
   tx_prog ix = prog /\ unpack (tx_data ix) = Ok (Unwrap amount) /\ map i_key (tx_metas ix) = [k0; k1; k2; k3; k4; k5; k6; k7; k8] ++ signers) /\
  (let ix := build_close_stuck_escrow prog k0 k1 k2 k3 k4 in
   tx_prog ix = prog /\ unpack (tx_data ix) = Ok CloseStuckEscrow /\ map i_key (tx_metas ix) = [k0; k1; k2; k3; k4; t22_id]) /\
  (let ix := build_sync_to_token_2022 prog k0 k1 k2 src owner in
   tx_prog ix = prog /\ unpack (tx_data ix) = Ok SyncMetadataToToken2022 /\
   map i_key (tx_metas ix) = [k0; k1; k2; t22_id] ++ map i_key (opt_meta src ++ opt_meta owner)) /\
  (let ix := build_sync_to_spl_token prog k0 k1 k2 k3 src owner in
   tx_prog ix = prog /\ unpack (tx_data ix) = Ok SyncMetadataToSplToken /\
   map i_key (tx_metas ix) = [k0; k1; k2; k3; mpl_id; system_id; rent_sysvar_id] ++ map i_key (opt_meta src ++ opt_meta owner)) /\
  (let ix := build_set_canonical_pointer prog k0 k1 k2 bs in
   tx_prog ix = prog /\ unpack (tx_data ix) = Ok (SetCanonicalPointer bs) /\ map i_key (tx_metas ix) = [k0; k1; k2; system_id]).
Proof.
  intros prog k0 k1 k2 k3 k4 k5 k6 k7 k8 signers amount idem bs src owner Ha Hb Hbs.
  assert (M : map i_key (map (fun k => meta_r k true) signers) = signers) by (rewrite map_map; apply map_id).
  cbv zeta. cbn [tx_prog tx_data tx_metas build_create_mint build_wrap build_unwrap build_close_stuck_escrow build_sync_to_token_2022 build_sync_to_spl_token build_set_canonical_pointer map app].
  rewrite M.
  repeat match goal with |- _ /\ _ => split end; try reflexivity; apply unpack_pack; cbn; auto.
Qed.
Print Assumptions C31_decoded.

(** ** C31: the privileges the builder grants suffice — whatever privileges let the instruction succeed on these
    accounts, the built instruction succeeds too, with the same result. *)
Lemma wr_in ms k b : In (meta_w k b) ms -> is_wr ms k = true.
Proof. intro H. apply writable_is_wr. exists (meta_w k b). auto. Qed.

Theorem C31_create_sufficient : forall e accounts w b u wtp idem l l',
  let ix := build_create_mint tw_id w b u wtp idem in
  map i_key accounts = map i_key (tx_metas ix) -> runs e accounts (tx_data ix) l l' -> runs e (tx_metas ix) (tx_data ix) l l'.
Proof.
  intros e accounts w b u wtp idem l l' ix K. unfold runs, process_instruction, ix. cbn [tx_data build_create_mint]. rewrite unpack_pack by exact I. cbn [bind map_instr process_instr].
  apply (le_create e (mkCtx tw_id accounts) (mkCtx tw_id (tx_metas ix)) w b u system_id wtp []); cbn [c_prog c_infos].
  - reflexivity.
  - split; [reflexivity|symmetry; exact K].
  - exact K.
  - apply (wr_in _ _ false). left; reflexivity.
  - apply (wr_in _ _ false). right; left; reflexivity.
Qed.
Print Assumptions C31_create_sufficient.
Theorem C31_close_sufficient : forall e accounts esc d u w a l l',
  let ix := build_close_stuck_escrow tw_id esc d u w a in
  map i_key accounts = map i_key (tx_metas ix) -> runs e accounts (tx_data ix) l l' -> runs e (tx_metas ix) (tx_data ix) l l'.
Proof.
  intros e accounts esc d u w a l l' ix K. unfold runs, process_instruction, ix. cbn [tx_data build_close_stuck_escrow]. rewrite unpack_pack by exact I. cbn [bind map_instr process_instr].
  apply (le_close e (mkCtx tw_id accounts) (mkCtx tw_id (tx_metas ix)) esc d u w a t22_id []); cbn [c_prog c_infos].
  - reflexivity.
  - split; [reflexivity|symmetry; exact K].
  - exact K.
  - apply (wr_in _ _ false). left; reflexivity.
  - apply (wr_in _ _ false). right; left; reflexivity.
Qed.
Print Assumptions C31_close_sufficient.
Theorem C31_sync_token_2022_sufficient : forall e accounts w a u src owner l l',
  let ix := build_sync_to_token_2022 tw_id w a u src owner in
  map i_key accounts = map i_key (tx_metas ix) -> runs e accounts (tx_data ix) l l' -> runs e (tx_metas ix) (tx_data ix) l l'.
Proof.
  intros e accounts w a u src owner l l' ix K. unfold runs, process_instruction, ix. cbn [tx_data build_sync_to_token_2022]. rewrite unpack_pack by exact I. cbn [bind map_instr process_instr].
  apply (le_sync_t22 e (mkCtx tw_id accounts) (mkCtx tw_id (tx_metas ix)) w a u t22_id (map i_key (opt_meta src ++ opt_meta owner))); cbn [c_prog c_infos].
  - reflexivity.
  - split; [reflexivity|symmetry; exact K].
  - exact K.
  - apply (wr_in _ _ false). left; reflexivity.
Qed.
Print Assumptions C31_sync_token_2022_sufficient.
Theorem C31_sync_spl_token_sufficient : forall e accounts md a w u src owner l l',
  let ix := build_sync_to_spl_token tw_id md a w u src owner in
  map i_key accounts = map i_key (tx_metas ix) -> runs e accounts (tx_data ix) l l' -> runs e (tx_metas ix) (tx_data ix) l l'.
Proof.
  intros e accounts md a w u src owner l l' ix K. unfold runs, process_instruction, ix. cbn [tx_data build_sync_to_spl_token]. rewrite unpack_pack by exact I. cbn [bind map_instr process_instr].
  apply (le_sync_spl e (mkCtx tw_id accounts) (mkCtx tw_id (tx_metas ix)) md a w u mpl_id system_id rent_sysvar_id (map i_key (opt_meta src ++ opt_meta owner))); cbn [c_prog c_infos].
  - reflexivity.
  - split; [reflexivity|symmetry; exact K].
  - exact K.
  - apply (wr_in _ _ false). left; reflexivity.
  - apply (wr_in _ _ false). right; left; reflexivity.
Qed.
Print Assumptions C31_sync_spl_token_sufficient.
Theorem C31_pointer_sufficient : forall e accounts ma ptr u bs l l',
  let ix := build_set_canonical_pointer tw_id ma ptr u bs in
  length bs = 32%nat -> bytes bs ->
  map i_key accounts = map i_key (tx_metas ix) -> runs e accounts (tx_data ix) l l' -> runs e (tx_metas ix) (tx_data ix) l l'.
Proof.
  intros e accounts ma ptr u bs l l' ix Hl Hb K. unfold runs, process_instruction, ix. cbn [tx_data build_set_canonical_pointer]. rewrite unpack_pack by (split; assumption). cbn [bind map_instr process_instr].
  apply (le_pointer e (mkCtx tw_id accounts) (mkCtx tw_id (tx_metas ix)) ma ptr u system_id []); cbn [c_prog c_infos].
  - reflexivity.
  - split; [reflexivity|symmetry; exact K].
  - exact K.
  - apply (wr_in _ _ false). right; left; reflexivity.
  - intros i E. injection E as <-. reflexivity.
Qed.
Print Assumptions C31_pointer_sufficient.

(** Wrap and Unwrap additionally look for transfer-hook and multisig accounts among the accounts after the
    ninth.  [hook_accounts_ok]: what the transfer helpers append (at any moment of the run) is the same for both
    account lists, and is read-only unless the built instruction makes it writable (the builders take no
    transfer-hook accounts).  [signers_kept]: everybody who signed [accounts] also signs the built instruction. *)
Definition hook_accounts_ok (e : env) (accounts built : list info) : Prop :=
  forall l x, e_extra e l accounts (skipn 9 accounts) = Ok x ->
    e_extra e l built (skipn 9 built) = Ok x /\ (forall m, In m x -> i_writable m = true -> writable built (i_key m)).
Definition signers_kept (accounts built : list info) : Prop := forall k, signed accounts k -> signed built k.

Lemma hook_agree e p accounts built : hook_accounts_ok e accounts built -> extras_agree e (mkCtx p accounts) (mkCtx p built) 9.
Proof. intros H l x E. destruct (H l x E) as [A B]. split; [exact A|]. intros m Hm W. apply writable_is_wr. exact (B m Hm W). Qed.
Theorem C31_wrap_sufficient : forall e accounts r w a utp wtp s u esc ta signers amount l l',
  let ix := build_wrap tw_id r w a utp wtp s u esc ta signers amount in
  amount < 2 ^ 64 -> map i_key accounts = map i_key (tx_metas ix) -> signers_kept accounts (tx_metas ix) -> hook_accounts_ok e accounts (tx_metas ix) ->
  runs e accounts (tx_data ix) l l' -> runs e (tx_metas ix) (tx_data ix) l l'.
Proof.
  intros e accounts r w a utp wtp s u esc ta signers amount l l' ix Ha K S X. unfold runs, process_instruction, ix. cbn [tx_data build_wrap]. rewrite unpack_pack by exact Ha. cbn [bind map_instr process_instr].
  assert (M : map i_key (map (fun k => meta_r k true) signers) = signers) by (rewrite map_map; apply map_id).
  apply (le_wrap e (mkCtx tw_id accounts) (mkCtx tw_id (tx_metas ix)) r w a utp wtp s u esc ta signers); cbn [c_prog c_infos].
  - split; [reflexivity|symmetry; exact K].
  - rewrite K. unfold ix. cbn [tx_metas build_wrap map app]. rewrite M. reflexivity.
  - apply (wr_in _ _ false). left; reflexivity.
  - apply (wr_in _ _ false). right; left; reflexivity.
  - apply (wr_in _ _ false). do 5 right; left; reflexivity.
  - apply (wr_in _ _ false). do 7 right; left; reflexivity.
  - intros k Hk. apply signed_is_sig. apply S. apply signed_is_sig. exact Hk.
  - apply hook_agree; exact X.
Qed.
Print Assumptions C31_wrap_sufficient.
Theorem C31_unwrap_sufficient : forall e accounts esc r a u wtp utp s w ta signers amount l l',
  let ix := build_unwrap tw_id esc r a u wtp utp s w ta signers amount in
  amount < 2 ^ 64 -> map i_key accounts = map i_key (tx_metas ix) -> signers_kept accounts (tx_metas ix) -> hook_accounts_ok e accounts (tx_metas ix) ->
  (forall x, e_multisig e l ta (skipn 9 accounts) = Ok x -> e_multisig e l ta (skipn 9 (tx_metas ix)) = Ok x) ->
  runs e accounts (tx_data ix) l l' -> runs e (tx_metas ix) (tx_data ix) l l'.
Proof.
  intros e accounts esc r a u wtp utp s w ta signers amount l l' ix Ha K S X Ms. unfold runs, process_instruction, ix. cbn [tx_data build_unwrap]. rewrite unpack_pack by exact Ha. cbn [bind map_instr process_instr].
  assert (M : map i_key (map (fun k => meta_r k true) signers) = signers) by (rewrite map_map; apply map_id).
  apply (le_unwrap e (mkCtx tw_id accounts) (mkCtx tw_id (tx_metas ix)) esc r a u wtp utp s w ta signers); cbn [c_prog c_infos].
  - split; [reflexivity|symmetry; exact K].
  - rewrite K. unfold ix. cbn [tx_metas build_unwrap map app]. rewrite M. reflexivity.
  - apply (wr_in _ _ false). right; left; reflexivity.
  - apply (wr_in _ _ false). do 7 right; left; reflexivity.
  - apply (wr_in _ _ false). do 6 right; left; reflexivity.
  - apply (wr_in _ _ false). left; reflexivity.
  - intros k Hk. apply signed_is_sig. apply S. apply signed_is_sig. exact Hk.
  - apply hook_agree; exact X.
  - exact Ms.
Qed.
Print Assumptions C31_unwrap_sufficient.

(** ** C31: and they are needed — no privilege the builder grants can be withheld from a successful run. *)
Theorem C31_create_needs : forall e accounts w b u sys wtp idem l l',
  keys_are accounts [w; b; u; sys; wtp] -> runs e accounts (pack (CreateMint idem)) l l' -> no_data l w -> no_data l b -> writable accounts w /\ writable accounts b.
Proof.
  intros e accounts w b u sys wtp idem l l' [more K] H Nw Nb. unfold runs, process_instruction in H. rewrite unpack_pack in H by exact I. cbn [bind map_instr process_instr] in H.
  destruct (process_create_inv e (mkCtx tw_id accounts) idem l l' w b u sys wtp more K eq_refl H) as (_ & _ & _ & [([X|X] & _)|(_ & _ & _ & _ & _ & W1 & W2 & _)]).
  - unfold no_data in Nw. lia.
  - unfold no_data in Nb. lia.
  - split; apply writable_is_wr; assumption.
Qed.
Print Assumptions C31_create_needs.
Theorem C31_wrap_needs : forall e accounts r w a utp wtp s u esc ta amount l l',
  keys_are accounts [r; w; a; utp; wtp; s; u; esc; ta] -> amount < 2 ^ 64 -> runs e accounts (pack (Wrap amount)) l l' ->
  writable accounts r /\ writable accounts w /\ writable accounts s /\ writable accounts esc /\
  ((forall m, a_data (l ta) <> DMultisig m) -> signed accounts ta).
Proof.
  intros e accounts r w a utp wtp s u esc ta amount l l' [more K] Ha H. unfold runs, process_instruction in H. rewrite unpack_pack in H by exact Ha. cbn [bind map_instr process_instr] in H.
  destruct (process_wrap_inv e (mkCtx tw_id accounts) amount l l' r w a utp wtp s u esc ta more K eq_refl H)
    as (_ & _ & _ & _ & _ & _ & et & um & ms & extra & l1 & msm & _ & _ & _ & _ & -> & [Ps Pw] & _ & -> & [_ Qw] & _).
  cbn [c_infos] in *. split; [|split; [|split; [|split]]].
  - apply writable_is_wr, Qw, (wr_in _ _ false). right; left; reflexivity.
  - apply writable_is_wr, Qw, (wr_in _ _ false). left; reflexivity.
  - apply writable_is_wr, Pw, (wr_in _ _ false). left; reflexivity.
  - apply writable_is_wr, Pw, (wr_in _ _ false). right; right; left; reflexivity.
  - intro N. apply signed_is_sig, Ps. apply signed_is_sig. exists (meta_r ta (auth_is_signer l ta)). split; [do 3 right; left; reflexivity|]. split; [reflexivity|].
    cbn [meta_r i_signer]. unfold auth_is_signer. destruct (a_data (l ta)) eqn:E; try reflexivity. exfalso. exact (N _ eq_refl).
Qed.
Print Assumptions C31_wrap_needs.
Theorem C31_unwrap_needs : forall e accounts esc r a u wtp utp s w ta amount l l',
  keys_are accounts [esc; r; a; u; wtp; utp; s; w; ta] -> amount < 2 ^ 64 -> runs e accounts (pack (Unwrap amount)) l l' ->
  writable accounts esc /\ writable accounts r /\ writable accounts s /\ writable accounts w /\
  (e_multisig e l ta (skipn 9 accounts) = Ok [] -> signed accounts ta) /\
  (forall ks k, e_multisig e l ta (skipn 9 accounts) = Ok ks -> In k ks -> signed accounts k).
Proof.
  intros e accounts esc r a u wtp utp s w ta amount l l' [more K] Ha H. unfold runs, process_instruction in H. rewrite unpack_pack in H by exact Ha. cbn [bind map_instr process_instr] in H.
  assert (Ms : exists ks l1 um seeds, e_multisig e l ta (skipn 9 accounts) = Ok ks /\
     cpi_plain (mkCtx tw_id accounts) ([meta_w s false; meta_w w false; meta_r ta (is_nil ks)] ++ map (fun k => meta_r k true) ks) /\
     invoke_transfer_checked e (mkCtx tw_id accounts) [u] utp esc u r a (skipn 9 accounts) amount (m_decimals um) seeds l1 = Ok l').
  { unfold process_unwrap in H. apply bind_ok in H; destruct H as ([] & _ & H). cbn [c_infos] in H.
    destruct accounts as [|i0 [|i1 [|i2 [|i3 [|i4 [|i5 [|i6 [|i7 [|i8 q]]]]]]]]]; try discriminate K.
    cbn [map app] in K. injection K as K0 K1 K2 K3 K4 K5 K6 K7 K8 Kr. cbv zeta in H. rewrite K0, K1, K2, K3, K4, K5, K6, K7, K8 in H.
    do 6 (apply bind_ok in H; destruct H as (? & _ & H)). apply bind_ok in H. destruct H as (ks & Hks & H).
    apply bind_ok in H. destruct H as (ix & Hix & H). apply bind_ok in H. destruct H as (l1 & H1 & H). apply bind_ok in H. destruct H as (um & _ & H).
    unfold ix_burn in Hix. apply bind_ok in Hix. destruct Hix as (? & _ & Hix). injection Hix as <-.
    apply invoke_plain_inv in H1. destruct H1 as (_ & P & _).
    exists ks, l1, um. eexists. split; [exact Hks|]. split; [exact P|exact H]. }
  destruct Ms as (ks & l1 & um & seeds & Hks & [Ps Pw] & Ht). cbn [c_infos] in *.
  apply invoke_transfer_checked_inv in Ht. destruct Ht as (_ & x & _ & Ht & _). apply invoke_any_inv in Ht. destruct Ht as (_ & Qw). cbn [c_infos ix_metas] in Qw.
  split; [|split; [|split; [|split; [|split]]]].
  - apply writable_is_wr, Qw, (wr_in _ _ false). left; reflexivity.
  - apply writable_is_wr, Qw, (wr_in _ _ false). right; right; left; reflexivity.
  - apply writable_is_wr, Pw, (wr_in _ _ false). left; reflexivity.
  - apply writable_is_wr, Pw, (wr_in _ _ false). right; left; reflexivity.
  - intro E. rewrite Hks in E. injection E as ->. apply signed_is_sig, Ps, signed_is_sig. exists (meta_r ta true). split; [right; right; left; reflexivity|split; reflexivity].
  - intros ks' k E Hk. rewrite Hks in E. injection E as <-. apply signed_is_sig, Ps, signed_is_sig. exists (meta_r k true). split; [|split; reflexivity].
    apply in_or_app. right. apply in_map_iff. exists k. auto.
Qed.
Print Assumptions C31_unwrap_needs.
Theorem C31_close_needs : forall e accounts esc d u w a p l l',
  keys_are accounts [esc; d; u; w; a; p] -> runs e accounts (pack CloseStuckEscrow) l l' -> writable accounts esc /\ writable accounts d.
Proof.
  intros e accounts esc d u w a p l l' [more K] H. unfold runs, process_instruction in H. rewrite unpack_pack in H by exact I. cbn [bind map_instr process_instr] in H.
  destruct (process_close_inv e (mkCtx tw_id accounts) l l' esc d u w a p more K eq_refl H) as (_ & _ & _ & _ & _ & et & m & msc & _ & _ & _ & _ & _ & _ & -> & [_ W] & _).
  split; apply writable_is_wr, W, (wr_in _ _ false); [left|right; left]; reflexivity.
Qed.
Print Assumptions C31_close_needs.
(** Metadata that is already in sync needs no write access ([l' w = l w]). *)
Theorem C31_sync_needs : forall e accounts w a u p md mp sys rent l l',
  (keys_are accounts [w; a; u; p] -> runs e accounts (pack SyncMetadataToToken2022) l l' -> l' w = l w \/ writable accounts w) /\
  (keys_are accounts [md; a; w; u; mp; sys; rent] -> runs e accounts (pack SyncMetadataToSplToken) l l' ->
   writable accounts md /\ (no_data l md -> writable accounts a)).
Proof.
  intros e accounts w a u p md mp sys rent l l'. split.
  - intros _ H. apply rs_process in H. destruct H as [H _]. destruct (is_wr accounts w) eqn:E; [right; apply writable_is_wr; exact E|left; apply H, E].
  - intros [more K] H. unfold runs, process_instruction in H. rewrite unpack_pack in H by exact I. cbn [bind map_instr process_instr] in H.
    destruct (process_sync_spl_inv e (mkCtx tw_id accounts) l l' md a w u mp sys rent more K eq_refl H) as (_ & _ & _ & _ & _ & W & um & d & _ & _ & C).
    split; [apply writable_is_wr; exact W|]. intro N. apply writable_is_wr. destruct C as [(_ & _ & Wa & _)|(D & _)]; [exact Wa|].
    exfalso. unfold no_data in N. unfold data_is_empty in D. rewrite N in D. discriminate D.
Qed.
Print Assumptions C31_sync_needs.
Theorem C31_pointer_needs : forall e accounts ma ptr u sys bs l l',
  length bs = 32%nat -> bytes bs -> keys_are accounts [ma; ptr; u; sys] -> runs e accounts (pack (SetCanonicalPointer bs)) l l' ->
  signed accounts ma /\ (l' ptr = l ptr \/ writable accounts ptr).
Proof.
  intros e accounts ma ptr u sys bs l l' Hl Hb [more K] H. split.
  - unfold runs, process_instruction in H. rewrite unpack_pack in H by (split; assumption). cbn [bind map_instr process_instr] in H.
    destruct (process_set_pointer_inv e (mkCtx tw_id accounts) _ l l' ma ptr u sys more K eq_refl H) as (S & _). apply signed_is_sig; exact S.
  - apply rs_process in H. destruct H as [H _]. destruct (is_wr accounts ptr) eqn:E; [right; apply writable_is_wr; exact E|left; apply H, E].
Qed.
Print Assumptions C31_pointer_needs.

(** ** C31, least privilege: the built instruction asks for exactly these signatures and write permissions, no more.
    Together with the [_needs] theorems above: nothing is requested that the program does not use. *)
Definition asks_for (ix : tw_instruction) (signers writables : list pubkey) : Prop :=
  forall k, (signed (tx_metas ix) k <-> In k signers) /\ (writable (tx_metas ix) k <-> In k writables).
Lemma asks_intro prog ms d sg wr : map i_key (filter i_signer ms) = sg -> map i_key (filter i_writable ms) = wr -> asks_for (mkTwIx prog ms d) sg wr.
Proof.
  intros <- <- k. cbn [tx_metas]. split; split.
  - intros (i & Hi & <- & Hs). apply in_map. apply filter_In. auto.
  - intro H. apply in_map_iff in H. destruct H as (i & <- & Hi). apply filter_In in Hi. destruct Hi as [Hi Hs]. exists i; auto.
  - intros (i & Hi & <- & Hs). apply in_map. apply filter_In. auto.
  - intro H. apply in_map_iff in H. destruct H as (i & <- & Hi). apply filter_In in Hi. destruct Hi as [Hi Hs]. exists i; auto.
Qed.
Lemma extra_signers ks : filter i_signer (map (fun k => meta_r k true) ks) = map (fun k => meta_r k true) ks /\ filter i_writable (map (fun k => meta_r k true) ks) = [].
Proof. induction ks as [|k ks [A B]]; [split; reflexivity|]. cbn. rewrite A, B. split; reflexivity. Qed.
Lemma extra_keys ks : map i_key (map (fun k => meta_r k true) ks) = ks.
Proof. rewrite map_map. apply map_id. Qed.
Theorem C31_least_privilege : forall prog k0 k1 k2 k3 k4 k5 k6 k7 k8 signers amount idem bs src owner,
  asks_for (build_create_mint prog k0 k1 k2 k3 idem) [] [k0; k1] /\
  asks_for (build_wrap prog k0 k1 k2 k3 k4 k5 k6 k7 k8 [] amount) [k8] [k0; k1; k5; k7] /\
  (signers <> [] -> asks_for (build_wrap prog k0 k1 k2 k3 k4 k5 k6 k7 k8 signers amount) signers [k0; k1; k5; k7]) /\
  asks_for (build_unwrap prog k0 k1 k2 k3 k4 k5 k6 k7 k8 [] amount) [k8] [k0; k1; k6; k7] /\
  (signers <> [] -> asks_for (build_unwrap prog k0 k1 k2 k3 k4 k5 k6 k7 k8 signers amount) signers [k0; k1; k6; k7]) /\
  asks_for (build_close_stuck_escrow prog k0 k1 k2 k3 k4) [] [k0; k1] /\
  asks_for (build_sync_to_token_2022 prog k0 k1 k2 src owner) [] [k0] /\
  asks_for (build_sync_to_spl_token prog k0 k1 k2 k3 src owner) [] [k0; k1] /\
  asks_for (build_set_canonical_pointer prog k0 k1 k2 bs) [k0] [k1].
Proof.
  intros prog k0 k1 k2 k3 k4 k5 k6 k7 k8 signers amount idem bs src owner.
  assert (N : signers <> [] -> is_nil signers = false) by (destruct signers; [congruence|reflexivity]).
  destruct (extra_signers signers) as [X Y].
  repeat match goal with |- _ /\ _ => split end; try (intro Hs; apply asks_intro; rewrite ?(N Hs)); try apply asks_intro.
  all: try reflexivity.
  all: try (destruct src, owner; reflexivity).
  all: rewrite filter_app, ?X, ?Y; cbn [filter meta_w meta_r i_signer i_writable map app i_key]; try reflexivity; apply extra_keys.
Qed.
Print Assumptions C31_least_privilege.

(** ** C31 refuted for the Sync builders' optional accounts: giving only the owner program of the source metadata
    builds the very instruction that gives that program as the source metadata account, so the program cannot
    tell the roles apart and reads the owner program as the metadata account. *)
Theorem C31_optional_accounts_refuted : forall prog w a u md k,
  build_sync_to_token_2022 prog w a u None (Some k) = build_sync_to_token_2022 prog w a u (Some k) None /\
  build_sync_to_spl_token prog md a w u None (Some k) = build_sync_to_spl_token prog md a w u (Some k) None.
Proof. intros; split; reflexivity. Qed.
Print Assumptions C31_optional_accounts_refuted.

(** ** The hypotheses are met: account lists with every account writable, as a careless client would send them. *)
Definition all_writable (ms : list info) : list info := map (fun i => mkInfo (i_key i) (i_signer i) true) ms.
Lemma all_writable_keys ms : map i_key (all_writable ms) = map i_key ms.
Proof. unfold all_writable. rewrite map_map. reflexivity. Qed.
Lemma all_writable_signed ms : signers_kept (all_writable ms) ms.
Proof. intros k (i & Hi & K & S). apply in_map_iff in Hi. destruct Hi as (j & <- & Hj). exists j. auto. Qed.
Example C31_nonvacuous : exists l1 l2 l3,
  map i_key (all_writable (tx_metas i_create)) = map i_key (tx_metas i_create) /\ runs demo_env (all_writable (tx_metas i_create)) (tx_data i_create) demo0 l1 /\
  map i_key (all_writable (tx_metas (i_wrap 70))) = map i_key (tx_metas (i_wrap 70)) /\ signers_kept (all_writable (tx_metas (i_wrap 70))) (tx_metas (i_wrap 70)) /\
  hook_accounts_ok demo_env (all_writable (tx_metas (i_wrap 70))) (tx_metas (i_wrap 70)) /\
  runs demo_env (all_writable (tx_metas (i_wrap 70))) (tx_data (i_wrap 70)) (after [i_create] demo0) l2 /\
  runs demo_env (tx_metas (i_unwrap 20)) (tx_data (i_unwrap 20)) (after [i_create; i_wrap 70] demo0) l3.
Proof.
  eexists. eexists. eexists.
  split; [apply all_writable_keys|]. split; [vm_compute; reflexivity|]. split; [apply all_writable_keys|]. split; [apply all_writable_signed|].
  split. { intros l x E. split; [exact E|]. injection E as <-. intros m []. }
  split; vm_compute; reflexivity.
Qed.
