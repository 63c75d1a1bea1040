(** * CreateProofs2.v — CreateMint: forward evaluation, idempotency. *)
From Verif Require Import Base Codec State Pda TokenProg Cpi Meta Processor Tac CodecProofs PdaProofs TokProofs FrameProofs ProcProofs Spec SpecLemmas CreateProofs.

Lemma allocate_eval e c k space s l :
  create_program_address e s (c_prog c) = Ok k -> has_key (c_infos c) system_id = true -> is_wr (c_infos c) k = true ->
  data_is_empty (a_data (l k)) = true -> a_owner (l k) = system_id -> space <= 10485760 ->
  forall borrowed, ~ In k borrowed ->
  invoke_signed e c borrowed (ix_allocate k space) [k] [s] l = Ok (upd l k (with_data (DRaw (zeros space)) (l k))).
Proof.
  intros Hs Hy Hw Hd Ho Hsp borrowed Hb. rewrite (invoke_signed_eval e c borrowed _ _ _ _ [k]); cbn [ix_allocate ix_metas ix_prog ix_body].
  - rewrite exec_program_sys. cbn [sys_exec map meta_w i_key]. unfold is_sig, is_wr. cbn [existsb meta_w i_key i_signer i_writable].
    rewrite pk_eqb_refl, Hd, Ho, pk_eqb_refl. cbn [andb orb guard bind]. rewrite bind_guard_true by (apply N.leb_le; exact Hsp). reflexivity.
  - intros m [<-|[]] _. exact Hb.
  - cbn [map_res]. rewrite Hs. reflexivity.
  - exact Hy.
  - intros m [<-|[]]. cbn. split; [auto|now apply has_key_wr].
  - intros m [<-|[]] _. exact Hw.
  - intros m [<-|[]] _. right. cbn. auto.
Qed.
Lemma assign_eval e c k o s n l :
  create_program_address e s (c_prog c) = Ok k -> has_key (c_infos c) system_id = true -> is_wr (c_infos c) k = true ->
  a_owner (l k) = system_id -> o <> system_id -> a_data (l k) = DRaw (zeros n) ->
  forall borrowed, ~ In k borrowed ->
  invoke_signed e c borrowed (ix_assign k o) [k] [s] l = Ok (upd l k (with_owner o (l k))).
Proof.
  intros Hs Hy Hw Ho Hne Hd borrowed Hb. rewrite (invoke_signed_eval e c borrowed _ _ _ _ [k]); cbn [ix_assign ix_metas ix_prog ix_body].
  - rewrite exec_program_sys. cbn [sys_exec map meta_w i_key]. rewrite Ho.
    assert (Hso : pk_eqb system_id o = false) by (apply pk_eqb_neq; auto). rewrite Hso.
    unfold is_sig, is_wr. cbn [existsb meta_w i_key i_signer i_writable].
    rewrite pk_eqb_refl. cbn [andb orb guard bind]. rewrite pk_eqb_refl, Hd, all_zero_zeros. reflexivity.
  - intros m [<-|[]] _. exact Hb.
  - cbn [map_res]. rewrite Hs. reflexivity.
  - exact Hy.
  - intros m [<-|[]]. cbn. split; [auto|now apply has_key_wr].
  - intros m [<-|[]] _. exact Hw.
  - intros m [<-|[]] _. right. cbn. auto.
Qed.

Lemma init_mint_eval e c p w auth frz dec l m :
  token_program p -> unpack_uninit_mint (a_data (l w)) = Ok m -> m_len m = mint_space (m_exts m) ->
  e_rent e (m_len m) <= a_lamports (l w) -> (p = spl_token_id -> m_exts m = []) -> ext_default_state m = Initialized ->
  a_owner (l w) = p -> is_wr (c_infos c) w = true -> has_key (c_infos c) p = true ->
  exists ix, ix_initialize_mint2 p w auth frz dec = Ok ix /\
    invoke e c [] ix [w] l = Ok (upd l w (with_data (DMint (mkMint (Some auth) 0 dec true frz (m_exts m) (m_len m))) (l w))).
Proof.
  intros Hp Hm Hl Hr Hs Hd Ho Hw Hk. unfold ix_initialize_mint2, check_spl_token_program_account.
  rewrite (proj2 (token_program_eqb p) Hp). cbn [guard bind]. eexists. split; [reflexivity|].
  unfold invoke. rewrite (invoke_signed_eval e c [] _ _ _ _ []); cbn [ix_metas ix_prog ix_body].
  - rewrite exec_program_tok by exact Hp. unfold tok_exec. cbn [map meta_w i_key]. unfold tok_init_mint.
    rewrite Hm. cbn [bind]. rewrite bind_guard_true by (apply N.leb_le; exact Hr).
    rewrite bind_guard_true by (apply N.eqb_eq; exact Hl).
    rewrite bind_guard_true.
    2: { destruct (pk_eqb p spl_token_id) eqn:E; [|reflexivity]. apply pk_eqb_eq in E. rewrite (Hs E). reflexivity. }
    rewrite Hd. cbn [acct_state_eqb negb orb guard bind].
    apply set_data_ok; [|exact Ho]. unfold is_wr. cbn. rewrite pk_eqb_refl. reflexivity.
  - intros m' [<-|[]] _ [].
  - reflexivity.
  - exact Hk.
  - intros m' [<-|[]]. cbn. split; [auto|]. now apply has_key_wr.
  - intros m' [<-|[]] _. exact Hw.
  - intros m' [<-|[]] X. discriminate.
Qed.

Lemma unpack_uninit_zeros n : 82 <= n -> unpack_uninit_mint (DRaw (zeros n)) = Ok (mkMint None 0 0 false None [] n).
Proof.
  intro H. unfold unpack_uninit_mint. rewrite all_zero_zeros, length_zeros. unfold mint_base_len.
  rewrite (proj2 (N.leb_le 82 n) H). reflexivity.
Qed.

Definition create_space (p : pubkey) : N := if pk_eqb p t22_id then 303 else 82.

Lemma process_create_eval e c idem l w b u x p rest mu :
  map i_key (c_infos c) = w :: b :: u :: x :: p :: rest -> c_prog c = tw_id ->
  has_key (c_infos c) system_id = true ->
  w = wrapped_mint_of e u p -> b = backpointer_of e w -> addresses_exist e u p ->
  token_program p -> token_program (a_owner (l u)) -> pod_unpack_mint (a_data (l u)) = Ok mu ->
  unallocated l w -> unallocated l b -> is_wr (c_infos c) w = true -> is_wr (c_infos c) b = true ->
  (e_rent e (create_space p) <= a_lamports (l w) -> e_rent e 32 <= a_lamports (l b) ->
     exists l', process_create_mint default_customizer e c idem l = Ok l') /\
  (a_lamports (l w) < e_rent e (create_space p) \/ a_lamports (l b) < e_rent e 32 ->
     process_create_mint default_customizer e c idem l = Err EAccountNotRentExempt).
Proof.
  intros Hk Hcp Hsys Ew Eb (Fw & Fa & Fb) Hp Hou Hmu [Uw1 Uw2] [Ub1 Ub2] Wrw Wrb.
  apply derivable_findable in Fw. apply derivable_findable in Fa. apply derivable_findable in Fb.
  pose proof (find_pda_findable _ _ _ Fw) as Gw. pose proof (find_pda_findable _ _ _ Fa) as Ga. pose proof (find_pda_findable _ _ _ Fb) as Gb.
  rewrite <- Ew in Ga, Gb.
  assert (Nwu : w <> u) by (rewrite Ew; apply wrapped_neq_unwrapped).
  assert (Nbw : b <> w) by (rewrite Eb; apply backpointer_neq_seed).
  assert (Nbu : b <> u) by (rewrite Eb, Ew; apply backpointer_neq_unwrapped).
  assert (Hkp : has_key (c_infos c) p = true) by (apply has_key_keys; rewrite Hk; cbn; auto 6).
  unfold process_create_mint.
  destruct (c_infos c) as [|wi [|bi [|ui [|xi [|pi additional]]]]] eqn:Hi; try discriminate Hk.
  cbn [map] in Hk. injection Hk as K1 K2 K3 K4 K5 K6. rewrite <- Hi in *. cbv zeta. rewrite K1, K2, K3, K5.
  unfold get_wrapped_mint_address_with_seed, get_wrapped_mint_address_with_seed_for_program. rewrite Gw. cbn [bind].
  unfold get_wrapped_mint_backpointer_address_with_seed, get_wrapped_mint_backpointer_address_with_seed_for_program. rewrite Gb. cbn [bind fst snd].
  change (pda e (wrapped_mint_seeds u p) tw_id) with (wrapped_mint_of e u p). rewrite <- Ew.
  change (pda e (backpointer_seeds w) tw_id) with (backpointer_of e w). rewrite <- Eb.
  rewrite !pk_eqb_refl. cbn [guard bind]. rewrite (proj2 (token_program_eqb _) Hou). cbn [guard bind].
  rewrite Uw1, Ub1. cbn [data_len length]. cbn [N.of_nat N.ltb N.compare orb].
  assert (Sw : create_program_address e (wrapped_mint_signer_seeds u p (find_bump e (wrapped_mint_seeds u p) tw_id)) tw_id = Ok w).
  { rewrite Ew. exact (find_pda_create _ _ _ _ _ Gw). }
  assert (Sb : create_program_address e (backpointer_signer_seeds w (find_bump e (backpointer_seeds w) tw_id)) tw_id = Ok b).
  { rewrite Eb. exact (find_pda_create _ _ _ _ _ Gb). }
  assert (Hspace : (if pk_eqb p t22_id then cu_space default_customizer else Ok mint_base_len) = Ok (create_space p))
    by (unfold create_space; destruct (pk_eqb p t22_id); reflexivity).
  rewrite Hspace. cbn [bind].
  destruct (N.leb_spec (e_rent e (create_space p)) (a_lamports (l w))) as [Hrw|Hrw].
  2: { cbn [guard bind]. split; [lia|]. intros _. reflexivity. }
  cbn [guard bind].
  assert (Hspc : create_space p <= 10485760) by (unfold create_space; destruct (pk_eqb p t22_id); lia).
  rewrite (allocate_eval e c w (create_space p) _ l); [|rewrite Hcp; exact Sw|exact Hsys|exact Wrw|rewrite Uw1; reflexivity|exact Uw2|exact Hspc|intros []]. cbn [bind].
  set (l1 := upd l w (with_data (DRaw (zeros (create_space p))) (l w))).
  assert (L1w : l1 w = mkAcc (a_lamports (l w)) (DRaw (zeros (create_space p))) system_id).
  { unfold l1. rewrite upd_same. unfold with_data. rewrite Uw2. reflexivity. }
  assert (Hps : p <> system_id) by (destruct Hp as [->| ->]; discriminate).
  rewrite (assign_eval e c w p _ (create_space p) l1); [|rewrite Hcp; exact Sw|exact Hsys|exact Wrw|rewrite L1w; reflexivity|exact Hps|rewrite L1w; reflexivity|intros []]. cbn [bind].
  set (l2 := upd l1 w (with_owner p (l1 w))).
  assert (L2w : l2 w = mkAcc (a_lamports (l w)) (DRaw (zeros (create_space p))) p).
  { unfold l2. rewrite upd_same, L1w. reflexivity. }
  assert (L2o : forall k, k <> w -> l2 k = l k).
  { intros k K. unfold l2, l1. rewrite !upd_other by auto. reflexivity. }
  assert (H3 : exists l3 m, (if pk_eqb p t22_id then cu_init default_customizer e c w p l2 else Ok l2) = Ok l3 /\
             unpack_uninit_mint (a_data (l3 w)) = Ok m /\ m_len m = mint_space (m_exts m) /\ m_len m = create_space p /\
             (p = spl_token_id -> m_exts m = []) /\ ext_default_state m = Initialized /\ a_owner (l3 w) = p /\
             a_lamports (l3 w) = a_lamports (l w) /\ forall k, k <> w -> l3 k = l k).
  { unfold create_space in *. destruct (pk_eqb p t22_id) eqn:Ep.
    - apply pk_eqb_eq in Ep. cbn [default_customizer cu_init]. unfold default_init. rewrite Ep in L2w, Hkp |- *.
      rewrite (invoke_init_ext_eval e c w _ l2 (mkMint None 0 0 false None [] 303));
        [|rewrite L2w; apply unpack_uninit_zeros; lia|reflexivity|reflexivity|vm_compute; discriminate|rewrite L2w; reflexivity|exact Wrw|exact Hkp].
      cbn [bind]. unfold get_wrapped_mint_authority, get_wrapped_mint_authority_for_program, get_wrapped_mint_authority_with_seed_for_program.
      rewrite Ga. cbn [bind fst]. cbn [m_exts m_len app].
      set (l2a := upd l2 w _).
      rewrite (invoke_init_ext_eval e c w _ l2a (mkMint None 0 0 false None [MxConfidentialTransferMint None true None] 303));
        [|unfold l2a; rewrite upd_same; reflexivity|reflexivity|reflexivity|vm_compute; discriminate
         |unfold l2a; rewrite upd_same; cbn; rewrite L2w; reflexivity|exact Wrw|exact Hkp].
      eexists. exists (mkMint None 0 0 false None [MxConfidentialTransferMint None true None; MxMetadataPointer (Some (pda e (wrapped_mint_authority_seeds w) tw_id)) (Some w)] 303).
      split; [reflexivity|]. rewrite upd_same. split; [reflexivity|]. split; [reflexivity|]. split; [reflexivity|].
      split; [discriminate|]. split; [reflexivity|]. unfold l2a. cbn [with_data a_owner a_lamports]. rewrite upd_same. cbn [with_data a_owner a_lamports].
      rewrite L2w. split; [reflexivity|]. split; [reflexivity|]. intros k K. rewrite !upd_other by auto. auto.
    - exists l2, (mkMint None 0 0 false None [] 82). split; [reflexivity|]. rewrite L2w. cbn [a_data a_owner a_lamports].
      split; [apply unpack_uninit_zeros; lia|]. repeat split; auto. }
  destruct H3 as (l3 & m & -> & Hm & Hml & Hms & Hsx & Hds & O3 & L3 & L3o). cbn [bind].
  cbn [default_customizer cu_freeze_dec]. unfold copy_freeze_dec. rewrite (L3o u) by auto. rewrite Hmu. cbn [bind fst snd].
  unfold get_wrapped_mint_authority, get_wrapped_mint_authority_for_program, get_wrapped_mint_authority_with_seed_for_program.
  rewrite Ga. cbn [bind fst].
  destruct (init_mint_eval e c p w (pda e (wrapped_mint_authority_seeds w) tw_id) (m_freeze mu) (m_decimals mu) l3 m) as (ix & Hix & Hin); auto.
  { rewrite Hms, L3. exact Hrw. }
  rewrite Hix. cbn [bind]. rewrite Hin. cbn [bind].
  set (l4 := upd l3 w _).
  assert (L4b : l4 b = l b) by (unfold l4; rewrite upd_other by auto; apply L3o; auto).
  rewrite L4b.
  destruct (N.leb_spec (e_rent e 32) (a_lamports (l b))) as [Hrb|Hrb].
  2: { cbn [guard bind]. split; [lia|]. intros _. reflexivity. }
  cbn [guard bind]. split; [|lia]. intros _ _.
  rewrite (allocate_eval e c b 32 _ l4); [|rewrite Hcp; exact Sb|exact Hsys|exact Wrb|rewrite L4b, Ub1; reflexivity|rewrite L4b; exact Ub2|lia|intros []]. cbn [bind].
  set (l5 := upd l4 b _).
  assert (L5b : l5 b = mkAcc (a_lamports (l b)) (DRaw (zeros 32)) system_id).
  { unfold l5. rewrite upd_same. unfold with_data. rewrite L4b, Ub2. reflexivity. }
  rewrite Hcp. rewrite (assign_eval e c b tw_id _ 32 l5); [|rewrite Hcp; exact Sb|exact Hsys|exact Wrb|rewrite L5b; reflexivity|discriminate|rewrite L5b; reflexivity|intros []]. cbn [bind].
  unfold write_key. rewrite upd_same, L5b. cbn [with_owner a_data]. rewrite bind_guard_true by reflexivity.
  rewrite Wrb. cbn [orb guard bind]. rewrite Hcp. cbn [a_owner with_owner]. rewrite pk_eqb_refl. cbn [guard bind]. eexists; reflexivity.
Qed.

(** When something is already there, nothing ever changes. *)
Lemma process_create_exists e c idem l w b u x p rest :
  map i_key (c_infos c) = w :: b :: u :: x :: p :: rest -> c_prog c = tw_id ->
  0 < data_len (a_data (l w)) \/ 0 < data_len (a_data (l b)) ->
  process_create_mint default_customizer e c idem l = Ok l \/
  exists err, process_create_mint default_customizer e c idem l = Err err.
Proof.
  intros Hk Hcp Hd. destruct (process_create_mint default_customizer e c idem l) as [l'|err] eqn:E; [|eauto].
  left. destruct (process_create_inv _ _ _ _ _ _ _ _ _ _ _ Hk Hcp E) as (_ & _ & _ & [H|H]).
  - f_equal. tauto.
  - destruct H as (A & B & _). lia.
Qed.
(** Exact outcome with the right addresses. *)
Lemma process_create_exists_eval e c idem l w b u x p rest :
  map i_key (c_infos c) = w :: b :: u :: x :: p :: rest -> c_prog c = tw_id ->
  w = wrapped_mint_of e u p -> b = backpointer_of e w -> addresses_exist e u p ->
  token_program (a_owner (l u)) ->
  0 < data_len (a_data (l w)) \/ 0 < data_len (a_data (l b)) ->
  process_create_mint default_customizer e c idem l =
    if idem then
      if pk_eqb (a_owner (l w)) p then
        if pk_eqb (a_owner (l b)) tw_id then Ok l else Err (ETw InvalidBackpointerOwner)
      else Err (ETw InvalidWrappedMintOwner)
    else Err EAccountAlreadyInitialized.
Proof.
  intros Hk Hcp Ew Eb (Fw & Fa & Fb) Hou Hd.
  apply derivable_findable in Fw. apply derivable_findable in Fb.
  pose proof (find_pda_findable _ _ _ Fw) as Gw. pose proof (find_pda_findable _ _ _ Fb) as Gb.
  rewrite <- Ew in Gb. unfold process_create_mint.
  destruct (c_infos c) as [|wi [|bi [|ui [|xi [|pi additional]]]]] eqn:Hi; try discriminate Hk.
  cbn [map] in Hk. injection Hk as K1 K2 K3 K4 K5 K6. cbv zeta. rewrite K1, K2, K3, K5.
  unfold get_wrapped_mint_address_with_seed, get_wrapped_mint_address_with_seed_for_program. rewrite Gw. cbn [bind].
  unfold get_wrapped_mint_backpointer_address_with_seed, get_wrapped_mint_backpointer_address_with_seed_for_program. rewrite Gb. cbn [bind fst snd].
  change (pda e (wrapped_mint_seeds u p) tw_id) with (wrapped_mint_of e u p). rewrite <- Ew.
  change (pda e (backpointer_seeds w) tw_id) with (backpointer_of e w). rewrite <- Eb.
  rewrite !pk_eqb_refl. cbn [guard bind]. rewrite (proj2 (token_program_eqb _) Hou). cbn [guard bind].
  assert (Ed : (0 <? data_len (a_data (l w))) || (0 <? data_len (a_data (l b))) = true).
  { apply orb_true_iff. rewrite !N.ltb_lt. exact Hd. }
  rewrite Ed, Hcp. destruct idem; cbn [guard bind]; [|reflexivity].
  destruct (pk_eqb (a_owner (l w)) p); cbn [guard bind]; [|reflexivity].
  destruct (pk_eqb (a_owner (l b)) tw_id); reflexivity.
Qed.
