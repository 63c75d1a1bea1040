(** * PropFork.v — C58: a copy of the program deployed at another address can do nothing to wrapped mints, escrows or pointers. *)
From Verif Require Import Base Codec State Pda TokenProg Cpi Meta Processor Builders Tac Demo CodecProofs PdaProofs TokProofs FrameProofs ProcProofs Spec SpecLemmas HistorySpec
  InvState InvTw InvHist HistProofs DemoHist PropHistory.

(** ** Specification *)
(** The same program binary, running at address [prog]. *)
Definition copy_runs (prog : pubkey) (e : env) (accounts : list info) (input : list N) (l l' : ledger) : Prop :=
  process_instruction e (mkCtx prog accounts) input l = Ok l'.
(** Another program: not token-wrap itself, nor one of the programs that own wrapped mints, nor the system program. *)
Definition elsewhere (prog : pubkey) : Prop := ~ ruled prog /\ prog <> system_id.
(** The instruction asks for a metadata sync to a Token-2022 mint. *)
Definition asks_sync_t22 (input : list N) : Prop := unpack input = Ok SyncMetadataToToken2022.

(** ** Proofs *)
Lemma not_sig accounts k : no_tw_signer accounts -> is_tw_pda k = true -> is_sig accounts k = false.
Proof. intros N P. destruct (is_sig accounts k) eqn:E; [exfalso; exact (unsigned_sig accounts k N P E)|reflexivity]. Qed.
Lemma copy_pdas e prog seeds pdas k : map_res (fun s => create_program_address e s prog) seeds = Ok pdas -> prog <> tw_id -> is_tw_pda k = true -> pk_mem k pdas = false.
Proof.
  revert pdas. induction seeds as [|s r IH]; intros pdas H N P; cbn [map_res] in H; [injection H as <-; reflexivity|].
  apply bind_ok in H. destruct H as (x & Hx & H). apply bind_ok in H. destruct H as (xs & Hxs & H). injection H as <-.
  unfold create_program_address in Hx. destruct (e_off_curve e s prog); [|discriminate Hx]. injection Hx as <-.
  unfold pk_mem. cbn [existsb]. pose proof (IH xs Hxs N P) as I. unfold pk_mem in I. rewrite I. rewrite orb_false_r. apply pk_eqb_neq. intros ->.
  cbn [is_tw_pda] in P. apply pk_eqb_eq in P. exact (N P).
Qed.
(** No call that needs a signature of one of token-wrap's addresses gets through. *)
Lemma copy_call e c b ix passed seeds l m : c_prog c <> tw_id -> no_tw_signer (c_infos c) -> In m (ix_metas ix) -> i_signer m = true -> is_tw_pda (i_key m) = true ->
  exists err, invoke_signed e c b ix passed seeds l = Err err.
Proof.
  intros N S Hm Sm P. destruct (invoke_signed e c b ix passed seeds l) as [l'|err] eqn:E; [exfalso|exists err; reflexivity].
  unfold invoke_signed in E. apply bind_ok in E. destruct E as ([] & _ & E). apply bind_ok in E. destruct E as (pdas & Hp & E).
  apply bind_ok in E. destruct E as ([] & _ & E). apply bind_ok in E. destruct E as ([] & _ & E). apply bind_ok in E. destruct E as ([] & _ & E).
  apply bind_ok in E. destruct E as ([] & G & _). apply guard_ok in G. rewrite forallb_forall in G. specialize (G m Hm).
  rewrite Sm, (not_sig _ _ S P), (copy_pdas _ _ _ _ _ Hp N P) in G. discriminate G.
Qed.
Ltac no_call H := match type of H with
  | bind (invoke_signed ?e ?c ?b ?ix ?p ?s ?l) _ = Ok _ =>
      let X := fresh in destruct (invoke_signed e c b ix p s l) eqn:X; [exfalso; revert X|discriminate H]
  | invoke_signed ?e ?c ?b ?ix ?p ?s ?l = Ok _ => exfalso; revert H
  end.
Lemma copy_call' e c b ix passed seeds l l' m : c_prog c <> tw_id -> no_tw_signer (c_infos c) -> In m (ix_metas ix) -> i_signer m = true -> is_tw_pda (i_key m) = true ->
  invoke_signed e c b ix passed seeds l = Ok l' -> False.
Proof. intros A B C D E F. destruct (copy_call e c b ix passed seeds l m A B C D E) as [x X]. rewrite X in F. discriminate F. Qed.

Lemma copy_update e c p w a f v seeds l l' : c_prog c <> tw_id -> no_tw_signer (c_infos c) -> is_tw_pda a = true -> cpi_update_field e c p w a f v seeds l = Ok l' -> False.
Proof. intros N S P. unfold cpi_update_field. apply (copy_call' _ _ _ _ _ _ _ _ (meta_r a true) N S); [right; left; reflexivity|reflexivity|exact P]. Qed.
Lemma copy_fields e c p w a x y seeds fs : forall l l', c_prog c <> tw_id -> no_tw_signer (c_infos c) -> is_tw_pda a = true ->
  update_fields_if_changed e c p w a fs x y seeds l = Ok l' -> l' = l.
Proof.
  induction fs as [|f r IH]; intros l l' N S P H; cbn [update_fields_if_changed] in H; [injection H as <-; reflexivity|].
  apply bind_ok in H. destruct H as (l1 & H1 & H). destruct (String.eqb (get_field f x) (get_field f y)); [injection H1 as <-; exact (IH _ _ N S P H)|].
  exfalso. exact (copy_update _ _ _ _ _ _ _ _ _ _ N S P H1).
Qed.
Lemma copy_additional e c p w a seeds kvs : forall hm l r, c_prog c <> tw_id -> no_tw_signer (c_infos c) -> is_tw_pda a = true ->
  sync_additional e c p w a seeds kvs hm l = Ok r -> snd r = l.
Proof.
  induction kvs as [|[k v] r IH]; intros hm l x N S P H; cbn [sync_additional] in H; [injection H as <-; reflexivity|].
  apply bind_ok in H. destruct H as (l1 & H1 & H). destruct (opt_string_eqb (hm_get k hm) (Some v)); [injection H1 as <-; exact (IH _ _ _ N S P H)|].
  exfalso. exact (copy_update _ _ _ _ _ _ _ _ _ _ N S P H1).
Qed.
Lemma copy_stale e c p w a seeds ks l l' : c_prog c <> tw_id -> no_tw_signer (c_infos c) -> is_tw_pda a = true -> remove_stale e c p w a seeds ks l = Ok l' -> l' = l.
Proof.
  destruct ks as [|k r]; intros N S P H; cbn [remove_stale] in H; [injection H as <-; reflexivity|].
  apply bind_ok in H. destruct H as (l1 & H1 & _). exfalso. revert H1.
  apply (copy_call' _ _ _ _ _ _ _ _ (meta_r a true) N S); [right; left; reflexivity|reflexivity|exact P].
Qed.
Lemma copy_create cu e c idem l l' e0 : reachable e0 l -> same_curve e0 e -> elsewhere (c_prog c) -> no_tw_signer (c_infos c) -> process_create_mint cu e c idem l = Ok l' -> False.
Proof.
  intros R C [Rul Sys] S H. assert (N : c_prog c <> tw_id) by (intro X; apply Rul; right; right; exact X).
  unfold process_create_mint in H. destruct (c_infos c) as [|wi [|bi [|ui [|x [|pi rest]]]]] eqn:Ei; try discriminate H. cbv zeta in H.
  apply bind_ok in H. destruct H as (wm & Hw & H). apply bind_ok in H. destruct H as (bm & Hb & H).
  apply get_wrapped_mint_address_with_seed_ok in Hw. apply get_backpointer_with_seed_ok in Hb. destruct Hw as [Hw _]. destruct Hb as [Hb _].
  apply bind_ok in H. destruct H as ([] & G1 & H). apply guard_ok, pk_eqb_eq in G1. apply bind_ok in H. destruct H as ([] & G2 & H). apply guard_ok, pk_eqb_eq in G2.
  apply bind_ok in H. destruct H as ([] & _ & H).
  destruct ((0 <? data_len (a_data (l (i_key wi)))) || (0 <? data_len (a_data (l (i_key bi))))).
  - apply bind_ok in H. destruct H as ([] & _ & H). apply bind_ok in H. destruct H as ([] & _ & H). apply bind_ok in H. destruct H as ([] & G & _). apply guard_ok, pk_eqb_eq in G.
    rewrite G2, Hb, G1, Hw in G. rewrite <- (wrapped_mint_of_curve e0 e (i_key ui) (i_key pi) C) in G. rewrite <- (backpointer_of_curve e0 e (wrapped_mint_of e0 (i_key ui) (i_key pi)) C) in G.
    destruct (inv_backpointer e0 l (i_key ui) (i_key pi) (reachable_inv _ _ R)) as [[_ O]|(_ & O & _)]; rewrite O in G; [exact (Sys (eq_sym G))|exact (N (eq_sym G))].
  - apply bind_ok in H. destruct H as (space & _ & H). apply bind_ok in H. destruct H as ([] & _ & H). apply bind_ok in H. destruct H as (l1 & H1 & _). revert H1.
    apply (copy_call' _ _ _ _ _ _ _ _ (meta_w (fst wm) true)); [exact N|rewrite Ei; exact S|left; reflexivity|reflexivity|]. cbn [i_key meta_w]. rewrite Hw. apply is_tw_pda_wrapped.
Qed.
Lemma copy_wrap e c n l l' : c_prog c <> tw_id -> no_tw_signer (c_infos c) -> process_wrap e c n l = Ok l' -> False.
Proof.
  intros N S H. unfold process_wrap in H. apply bind_ok in H. destruct H as ([] & _ & H).
  destruct (c_infos c) as [|ri [|wi [|ai [|upi [|wpi [|si [|ui [|ei [|ti additional]]]]]]]]] eqn:Ei; try discriminate H. cbv zeta in H.
  apply bind_ok in H. destruct H as (w' & _ & H). apply bind_ok in H. destruct H as ([] & _ & H).
  apply bind_ok in H. destruct H as (am & Ham & H). apply get_wrapped_mint_authority_with_seed_ok in Ham. destruct Ham as [Ham _].
  apply bind_ok in H. destruct H as ([] & Ga & H). apply guard_ok, pk_eqb_eq in Ga.
  apply bind_ok in H. destruct H as (x & _ & H). apply bind_ok in H. destruct H as ([] & _ & H). apply bind_ok in H. destruct H as (et & _ & H). apply bind_ok in H. destruct H as ([] & _ & H).
  apply bind_ok in H. destruct H as (um & _ & H). apply bind_ok in H. destruct H as ([] & _ & H). apply bind_ok in H. destruct H as (l1 & _ & H). apply bind_ok in H. destruct H as (ix & Hix & H).
  unfold ix_mint_to in Hix. apply bind_ok in Hix. destruct Hix as ([] & _ & Hix). injection Hix as <-. revert H.
  apply (copy_call' _ _ _ _ _ _ _ _ (meta_r (i_key ai) true)); [exact N|rewrite Ei; exact S|right; right; left; reflexivity|reflexivity|]. cbn [i_key meta_r]. rewrite Ga, Ham. apply is_tw_pda_authority.
Qed.
Lemma copy_unwrap e c n l l' e0 : reachable e0 l -> same_curve e0 e -> c_prog c <> tw_id -> no_tw_signer (c_infos c) -> process_unwrap e c n l = Ok l' -> False.
Proof.
  intros R C N S H. unfold process_unwrap in H. apply bind_ok in H. destruct H as ([] & _ & H).
  destruct (c_infos c) as [|ei [|ri [|ai [|ui [|wpi [|upi [|si [|wi [|ti additional]]]]]]]]] eqn:Ei; try discriminate H. cbv zeta in H.
  apply bind_ok in H. destruct H as (w' & Hw & H). apply bind_ok in H. destruct H as ([] & _ & H).
  apply bind_ok in H. destruct H as (am & Ham & H). apply get_wrapped_mint_authority_with_seed_ok in Ham. destruct Ham as [Ham _].
  apply bind_ok in H. destruct H as ([] & Ga & H). apply guard_ok, pk_eqb_eq in Ga.
  apply bind_ok in H. destruct H as (x & _ & H). apply bind_ok in H. destruct H as ([] & _ & H). apply bind_ok in H. destruct H as (msk & _ & H).
  apply bind_ok in H. destruct H as (ix & Hix & H). unfold ix_burn in Hix. apply bind_ok in Hix. destruct Hix as ([] & Hwp & Hix). apply check_spl_ok in Hwp. injection Hix as <-.
  apply bind_ok in H. destruct H as (l1 & Hb & H). apply bind_ok in H. destruct H as (um & _ & H).
  assert (P : is_tw_pda (i_key ai) = true) by (rewrite Ga, Ham; apply is_tw_pda_authority).
  assert (Q : auth_is_signer l1 (i_key ai) = true).
  { unfold auth_is_signer. destruct (a_data (l1 (i_key ai))) as [| | | |ms|] eqn:D; try reflexivity. exfalso.
    unfold invoke in Hb. apply invoke_plain_inv in Hb. destruct Hb as (Hb & _). cbn [ix_prog ix_metas ix_body] in Hb. rewrite exec_program_tok in Hb by exact Hwp.
    unfold tok_exec in Hb. cbn [map meta_w meta_r i_key app] in Hb.
    apply burn_inv in Hb. destruct Hb as (s & m & s1 & _ & _ & _ & _ & _ & _ & _ & _ & _ & _ & _ & _ & _ & El). rewrite El in D.
    destruct (pk_dec (i_key ai) (i_key wi)) as [X|X]; [rewrite X, upd_same in D; discriminate D|]. rewrite upd_other in D by (intro Z; exact (X (eq_sym Z))).
    destruct (pk_dec (i_key ai) (i_key si)) as [Y|Y]; [rewrite Y, upd_same in D; discriminate D|]. rewrite upd_other in D by (intro Z; exact (Y (eq_sym Z))).
    exact (pda_not_multisig e0 l _ _ (reachable_inv _ _ R) P D). }
  unfold invoke_transfer_checked in H. apply bind_ok in H. destruct H as (y & _ & H). apply bind_ok in H. destruct H as (extra & _ & H). cbv zeta in H. revert H.
  apply (copy_call' _ _ _ _ _ _ _ _ (meta_r (i_key ai) (auth_is_signer l1 (i_key ai)))); [exact N|rewrite Ei; exact S|right; right; right; left; reflexivity|exact Q|exact P].
Qed.

Lemma copy_close e c l l' : c_prog c <> tw_id -> no_tw_signer (c_infos c) -> process_close_stuck_escrow e c l = Ok l' -> False.
Proof.
  intros N S H. unfold process_close_stuck_escrow in H.
  destruct (c_infos c) as [|ei [|di [|ui [|wi [|ai [|pi additional]]]]]] eqn:Ei; try discriminate H. cbv zeta in H.
  apply bind_ok in H. destruct H as ([] & _ & H). apply bind_ok in H. destruct H as (w' & _ & H). apply bind_ok in H. destruct H as ([] & _ & H).
  apply bind_ok in H. destruct H as (am & Ham & H). apply get_wrapped_mint_authority_with_seed_ok in Ham. destruct Ham as [Ham _].
  apply bind_ok in H. destruct H as ([] & Ga & H). apply guard_ok, pk_eqb_eq in Ga.
  apply bind_ok in H. destruct H as (x & _ & H). apply bind_ok in H. destruct H as ([] & _ & H). apply bind_ok in H. destruct H as (et & _ & H).
  do 3 (apply bind_ok in H; destruct H as ([] & _ & H)). apply bind_ok in H. destruct H as (m & _ & H). apply bind_ok in H. destruct H as ([] & _ & H).
  apply bind_ok in H. destruct H as (ix & Hix & H). unfold ix_close_account in Hix. apply bind_ok in Hix. destruct Hix as ([] & _ & Hix). injection Hix as <-. revert H.
  apply (copy_call' _ _ _ _ _ _ _ _ (meta_r (i_key ai) true)); [exact N|rewrite Ei; exact S|right; right; left; reflexivity|reflexivity|]. cbn [i_key meta_r]. rewrite Ga, Ham. apply is_tw_pda_authority.
Qed.
Lemma copy_sync_t22 e c l l' : c_prog c <> tw_id -> no_tw_signer (c_infos c) -> process_sync_metadata_to_token_2022 e c l = Ok l' -> l' = l.
Proof.
  intros N S H. unfold process_sync_metadata_to_token_2022 in H.
  destruct (c_infos c) as [|wi [|ai [|ui [|pi rest]]]] eqn:Ei; try discriminate H. cbv zeta in H. rewrite <- Ei in S.
  do 2 (apply bind_ok in H; destruct H as ([] & _ & H)). apply bind_ok in H. destruct H as (wm & _ & H). apply bind_ok in H. destruct H as ([] & _ & H).
  apply bind_ok in H. destruct H as (am & Ham & H). apply get_wrapped_mint_authority_with_seed_ok in Ham. destruct Ham as [Ham _].
  apply bind_ok in H. destruct H as ([] & Ga & H). apply guard_ok, pk_eqb_eq in Ga. assert (P : is_tw_pda (i_key ai) = true) by (rewrite Ga, Ham; apply is_tw_pda_authority).
  apply bind_ok in H. destruct H as (um & _ & H). apply bind_ok in H. destruct H as (m & _ & H). destruct (ext_metadata m) as [x|].
  - apply bind_ok in H. destruct H as (l1 & H1 & H). apply (copy_fields _ _ _ _ _ _ _ _ _ _ _ N S P) in H1. subst l1.
    apply bind_ok in H. destruct H as (r & H2 & H). apply (copy_additional _ _ _ _ _ _ _ _ _ _ N S P) in H2. rewrite H2 in H.
    exact (copy_stale _ _ _ _ _ _ _ _ _ N S P H).
  - apply bind_ok in H. destruct H as (l1 & H1 & _). exfalso. revert H1.
    apply (copy_call' _ _ _ _ _ _ _ _ (meta_r (i_key ai) true)); [exact N|exact S|right; right; right; left; reflexivity|reflexivity|exact P].
Qed.
Lemma copy_sync_spl e c l l' : c_prog c <> tw_id -> no_tw_signer (c_infos c) -> process_sync_metadata_to_spl_token e c l = Ok l' -> False.
Proof.
  intros N S H. unfold process_sync_metadata_to_spl_token in H.
  destruct (c_infos c) as [|mi [|ai [|wi [|ui [|xi [|sysi [|renti rest]]]]]]] eqn:Ei; try discriminate H. cbv zeta in H. rewrite <- Ei in S.
  apply bind_ok in H; destruct H as ([] & _ & H). apply bind_ok in H. destruct H as (wm & _ & H). apply bind_ok in H. destruct H as ([] & _ & H).
  apply bind_ok in H. destruct H as (am & Ham & H). apply get_wrapped_mint_authority_with_seed_ok in Ham. destruct Ham as [Ham _].
  apply bind_ok in H. destruct H as ([] & Ga & H). apply guard_ok, pk_eqb_eq in Ga. assert (P : is_tw_pda (i_key ai) = true) by (rewrite Ga, Ham; apply is_tw_pda_authority).
  apply bind_ok in H. destruct H as (mp & _ & H). do 2 (apply bind_ok in H; destruct H as ([] & _ & H)).
  apply bind_ok in H. destruct H as (um & _ & H). apply bind_ok in H. destruct H as (d & _ & H). destruct (data_is_empty (a_data (l (i_key mi)))); revert H.
  - apply (copy_call' _ _ _ _ _ _ _ _ (meta_r (i_key ai) true)); [exact N|exact S|right; right; left; reflexivity|reflexivity|exact P].
  - apply (copy_call' _ _ _ _ _ _ _ _ (meta_r (i_key ai) true)); [exact N|exact S|right; left; reflexivity|reflexivity|exact P].
Qed.
Lemma copy_pointer e c k l l' e0 : reachable e0 l -> same_curve e0 e -> elsewhere (c_prog c) -> no_tw_signer (c_infos c) -> process_set_canonical_pointer e c k l = Ok l' -> False.
Proof.
  intros R C [Rul Sys] S H. assert (N : c_prog c <> tw_id) by (intro X; apply Rul; right; right; exact X).
  unfold process_set_canonical_pointer in H. destruct (c_infos c) as [|ai [|pi [|ui [|x rest]]]] eqn:Ei; try discriminate H. cbv zeta in H. rewrite <- Ei in S.
  do 2 (apply bind_ok in H; destruct H as ([] & _ & H)). apply bind_ok in H. destruct H as (m & _ & H). apply bind_ok in H. destruct H as (ma & _ & H). apply bind_ok in H. destruct H as ([] & _ & H).
  apply bind_ok in H. destruct H as (pp & Hp & H). apply get_canonical_with_seed_ok in Hp. destruct Hp as [Hp _].
  apply bind_ok in H. destruct H as ([] & Gp & H). apply guard_ok, pk_eqb_eq in Gp. rewrite Hp in Gp.
  assert (P : is_tw_pda (i_key pi) = true) by (rewrite Gp; apply is_tw_pda_canonical).
  apply bind_ok in H. destruct H as (l2 & H2 & H). destruct (data_is_empty (a_data (l (i_key pi)))).
  - apply bind_ok in H2. destruct H2 as ([] & _ & H2). apply bind_ok in H2. destruct H2 as (l1 & H1 & _). revert H1.
    apply (copy_call' _ _ _ _ _ _ _ _ (meta_w (i_key pi) true)); [exact N|exact S|left; reflexivity|reflexivity|exact P].
  - injection H2 as <-. unfold write_key in H. do 2 (apply bind_ok in H; destruct H as ([] & _ & H)). apply bind_ok in H. destruct H as ([] & G & _). apply guard_ok, pk_eqb_eq in G.
    rewrite Gp in G. rewrite <- (canonical_pointer_of_curve e0 e (i_key ui) C) in G.
    destruct (pointer_state_l e0 l (i_key ui) R) as [[_ O]|(v & O & _)]; rewrite O in G; [exact (Sys (eq_sym G))|exact (N (eq_sym G))].
Qed.

(** Whatever it is asked to do, and with whatever accounts, a copy of the program changes nothing. *)
Theorem C58_inert : forall prog e0 e accounts input l l',
  elsewhere prog -> reachable e0 l -> same_curve e0 e -> no_tw_signer accounts ->
  copy_runs prog e accounts input l l' -> l' = l.
Proof.
  intros prog e0 e accounts input l l' E R C S H. assert (N : prog <> tw_id) by (intro X; apply (proj1 E); right; right; exact X).
  unfold copy_runs, process_instruction in H. apply bind_ok in H. destruct H as (i & _ & H).
  destruct i as [b|n|n| | | |k]; cbn [map_instr process_instr] in H.
  - exfalso. exact (copy_create _ _ (mkCtx prog accounts) _ _ _ e0 R C E S H).
  - exfalso. exact (copy_wrap _ (mkCtx prog accounts) _ _ _ N S H).
  - exfalso. exact (copy_unwrap _ (mkCtx prog accounts) _ _ _ e0 R C N S H).
  - exfalso. exact (copy_close _ (mkCtx prog accounts) _ _ N S H).
  - exact (copy_sync_t22 _ (mkCtx prog accounts) _ _ N S H).
  - exfalso. exact (copy_sync_spl _ (mkCtx prog accounts) _ _ N S H).
  - exfalso. exact (copy_pointer _ (mkCtx prog accounts) _ _ _ e0 R C E S H).
Qed.
Print Assumptions C58_inert.
(** It refuses everything but a sync of metadata that are in sync already. *)
Theorem C58_refuses : forall prog e0 e accounts input l l',
  elsewhere prog -> reachable e0 l -> same_curve e0 e -> no_tw_signer accounts -> ~ asks_sync_t22 input ->
  ~ copy_runs prog e accounts input l l'.
Proof.
  intros prog e0 e accounts input l l' E R C S A H. assert (N : prog <> tw_id) by (intro X; apply (proj1 E); right; right; exact X).
  unfold copy_runs, process_instruction in H. apply bind_ok in H. destruct H as (i & U & H).
  destruct i as [b|n|n| | | |k]; cbn [map_instr process_instr] in H.
  - exact (copy_create _ _ (mkCtx prog accounts) _ _ _ e0 R C E S H).
  - exact (copy_wrap _ (mkCtx prog accounts) _ _ _ N S H).
  - exact (copy_unwrap _ (mkCtx prog accounts) _ _ _ e0 R C N S H).
  - exact (copy_close _ (mkCtx prog accounts) _ _ N S H).
  - exact (A U).
  - exact (copy_sync_spl _ (mkCtx prog accounts) _ _ N S H).
  - exact (copy_pointer _ (mkCtx prog accounts) _ _ _ e0 R C E S H).
Qed.
Print Assumptions C58_refuses.

(** ** The hypotheses are met: the unwrap that token-wrap accepts at the end of the demo history is refused by a copy. *)
Definition d_copy : pubkey := PkRaw 900.
Example C58_nonvacuous : elsewhere d_copy /\ reachable demo_env (now_of setup) /\ no_tw_signer (tx_metas (i_wrap 300)) /\ ~ asks_sync_t22 (tx_data (i_wrap 300)) /\
  (exists l', runs demo_env (tx_metas (i_wrap 300)) (tx_data (i_wrap 300)) (now_of setup) l' /\ supply l' (d_w t22_id) = 300) /\
  forall l', ~ copy_runs d_copy demo_env (tx_metas (i_wrap 300)) (tx_data (i_wrap 300)) (now_of setup) l'.
Proof.
  assert (E : elsewhere d_copy) by (split; [intros [X|[X|X]]; discriminate X|discriminate]).
  assert (R : reachable demo_env (now_of setup)) by (exists (past_of setup); apply played_history; vm_compute; reflexivity).
  assert (S : no_tw_signer (tx_metas (i_wrap 300))).
  { intros k (i & Hi & K & Si). subst k. destruct (is_tw_pda (i_key i)) eqn:P; [exfalso|reflexivity].
    assert (X : forallb (fun i => negb (i_signer i && is_tw_pda (i_key i))) (tx_metas (i_wrap 300)) = true) by (vm_compute; reflexivity).
    rewrite forallb_forall in X. specialize (X i Hi). rewrite Si, P in X. discriminate X. }
  assert (A : ~ asks_sync_t22 (tx_data (i_wrap 300))) by (intro X; vm_compute in X; discriminate X).
  split; [exact E|]. split; [exact R|]. split; [exact S|]. split; [exact A|]. split.
  - unfold runs. destruct (process_instruction demo_env (mkCtx tw_id (tx_metas (i_wrap 300))) (tx_data (i_wrap 300)) (now_of setup)) as [l'|x] eqn:Q.
    + exists l'. split; [reflexivity|]. assert (Z : observe (fun l => supply l (d_w t22_id)) (process_instruction demo_env (mkCtx tw_id (tx_metas (i_wrap 300))) (tx_data (i_wrap 300)) (now_of setup)) = Some 300) by (vm_compute; reflexivity).
      rewrite Q in Z. cbn [observe] in Z. injection Z as Z. exact Z.
    + exfalso. assert (Z : observe (fun l => supply l (d_w t22_id)) (process_instruction demo_env (mkCtx tw_id (tx_metas (i_wrap 300))) (tx_data (i_wrap 300)) (now_of setup)) = Some 300) by (vm_compute; reflexivity).
      rewrite Q in Z. discriminate Z.
  - intros l' H. exact (C58_refuses d_copy demo_env demo_env _ _ _ l' E R (same_curve_refl _) S A H).
Qed.
