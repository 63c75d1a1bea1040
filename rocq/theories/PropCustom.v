(** * PropCustom.v — C55: programs built with another mint customizer (mint_customizer/): what the customizer can decide,
    and what the two customizers shipped besides the default produce. *)
From Verif Require Import Base Codec State Pda TokenProg Cpi Meta Processor Builders Tac CodecProofs PdaProofs TokProofs FrameProofs ProcProofs Spec SpecLemmas WrapProofs WrapProofs2 CreateProofs CreateProofs2 CreateSpec
  SyncSpec PropCreate Demo.

(** ** Specification *)
(** CreateMint of a program built as [process_create_mint::<cu>]. *)
Definition create_outcome_of (cu : customizer) (e : env) (accounts : list info) (idempotent : bool) (l : ledger) : res ledger :=
  process_create_mint cu e (mkCtx tw_id accounts) idempotent l.
(** Initialising extensions [xs], one after the other. *)
Fixpoint init_all (e : env) (c : ctx) (p w : pubkey) (xs : list mint_ext) (l : ledger) : res ledger :=
  match xs with
  | [] => Ok l
  | x :: r => l1 <- invoke_init_ext e c p w x l ;; init_all e c p w r l1
  end.
(** Customizer [cu] adds extensions [xs], makes room for them, copies the decimals and takes the freeze authority from [freeze]. *)
Definition adds (cu : customizer) (xs : list mint_ext) (freeze : mint -> option pubkey) : Prop :=
  cu_space cu = Ok (mint_space xs) /\
  (forall e c w p l, cu_init cu e c w p l = init_all e c p w xs l) /\
  (forall l u, cu_freeze_dec cu l u = (m <- pod_unpack_mint (a_data (l u)) ;; Ok (freeze m, m_decimals m))).
(** Token-2022 lets a mint be given [xs]: each can be initialised, none twice, new accounts do not start frozen, and the account is not
    larger than an account can be. *)
Fixpoint all_different (xs : list mint_ext) : Prop :=
  match xs with [] => True | x :: r => (forall y, In y r -> mint_ext_same y x = false) /\ all_different r end.
Definition possible_extensions (xs : list mint_ext) : Prop :=
  (forall x, In x xs -> mint_ext_initializable x = true) /\ all_different xs /\ ~ In (MxDefaultAccountState Frozen) xs /\ mint_space xs <= 10485760.
(** What a mint of program [p] gets: extensions are for Token-2022 only. *)
Definition given_extensions (p : pubkey) (xs ys : list mint_ext) : Prop := (p = spl_token_id /\ ys = []) \/ (p = t22_id /\ ys = xs).

(** ** Proofs *)
Lemma init_all_inv e c p w xs : forall l l' m, init_all e c p w xs l = Ok l' -> unpack_uninit_mint (a_data (l w)) = Ok m ->
  exists m', unpack_uninit_mint (a_data (l' w)) = Ok m' /\ m_exts m' = m_exts m ++ xs /\ m_len m' = m_len m /\
    a_lamports (l' w) = a_lamports (l w) /\ a_owner (l' w) = a_owner (l w) /\ forall k, k <> w -> l' k = l k.
Proof.
  induction xs as [|x r IH]; intros l l' m H Hm; cbn [init_all] in H.
  - injection H as <-. exists m. rewrite app_nil_r. repeat split; auto.
  - apply bind_ok in H. destruct H as (l1 & H1 & H). apply invoke_init_ext_inv in H1. destruct H1 as (_ & m1 & Hm1 & ->).
    rewrite Hm in Hm1. injection Hm1 as <-.
    assert (U : m_init m = false). { unfold unpack_uninit_mint in Hm. destruct (a_data (l w)); try discriminate Hm; inv_ok; subst; auto.
      all: try (apply negb_true_iff in E; exact E). }
    assert (Hm1 : unpack_uninit_mint (a_data (upd l w (with_data (DMint (set_mexts (m_exts m ++ [x]) (m_len m) m)) (l w)) w)) = Ok (set_mexts (m_exts m ++ [x]) (m_len m) m)).
    { rewrite upd_same. cbn [with_data a_data unpack_uninit_mint set_mexts m_init]. rewrite U. reflexivity. }
    destruct (IH _ _ _ H Hm1) as (m' & A & B & C & D & O & K). exists m'. cbn [set_mexts m_exts m_len] in B, C.
    rewrite upd_same in D, O. cbn [with_data a_lamports a_owner] in D, O.
    split; [exact A|]. split; [rewrite B, <- app_assoc; reflexivity|]. split; [exact C|]. split; [exact D|]. split; [exact O|].
    intros k Hk. rewrite K by exact Hk. apply upd_other. auto.
Qed.
Lemma tlv_app xs ys : tlv_total (xs ++ ys) = tlv_total xs + tlv_total ys.
Proof. unfold tlv_total. induction xs as [|x r IH]; cbn [app fold_right]; [reflexivity|]. rewrite IH. lia. Qed.
Lemma init_all_eval e c w xs : forall l m, unpack_uninit_mint (a_data (l w)) = Ok m ->
  (forall x, In x xs -> mint_ext_initializable x = true) -> all_different xs ->
  (forall x y, In x xs -> In y (m_exts m) -> mint_ext_same x y = false) ->
  166 + tlv_total (map mint_ext_len (m_exts m ++ xs)) <= m_len m \/ xs = [] ->
  a_owner (l w) = t22_id -> is_wr (c_infos c) w = true -> has_key (c_infos c) t22_id = true ->
  exists l', init_all e c t22_id w xs l = Ok l'.
Proof.
  induction xs as [|x r IH]; intros l m Hm Hi Hd Hx Hl Ho Hw Hk; cbn [init_all]; [eexists; reflexivity|].
  destruct Hl as [Hl|Hl]; [|discriminate Hl].
  rewrite (invoke_init_ext_eval e c w x l m Hm).
  - cbn [bind]. cbn [all_different] in Hd. destruct Hd as [Hd1 Hd2].
    assert (U : m_init m = false). { unfold unpack_uninit_mint in Hm. destruct (a_data (l w)); try discriminate Hm; inv_ok; subst; auto.
      all: try (apply negb_true_iff in E; exact E). }
    apply (IH _ (set_mexts (m_exts m ++ [x]) (m_len m) m)); auto.
    + rewrite upd_same. cbn [with_data a_data unpack_uninit_mint set_mexts m_init]. rewrite U. reflexivity.
    + intros y Hy. apply Hi. right. exact Hy.
    + intros y z Hy Hz. cbn [set_mexts m_exts] in Hz. apply in_app_or in Hz. destruct Hz as [Hz|[<-|[]]]; [apply Hx; [right; exact Hy|exact Hz]|].
      apply Hd1. exact Hy.
    + left. cbn [set_mexts m_exts m_len]. rewrite <- app_assoc. exact Hl.
    + rewrite upd_same. exact Ho.
  - apply Hi. left. reflexivity.
  - apply not_true_is_false. intro E. apply existsb_exists in E. destruct E as (y & Hy & E). rewrite (Hx x y) in E; [discriminate E|left; reflexivity|exact Hy].
  - change (x :: r) with ([x] ++ r) in Hl. rewrite app_assoc, map_app, tlv_app in Hl. lia.
  - exact Ho.
  - exact Hw.
  - exact Hk.
Qed.

(** C55: whatever the customizer does, a mint created is at its address, its backpointer names the unwrapped mint, and its authority is
    token-wrap's. *)
Theorem C55_any_customizer : forall cu e accounts idempotent l l' w b u x p,
  keys_are accounts [w; b; u; x; p] -> create_outcome_of cu e accounts idempotent l = Ok l' -> no_data l w -> no_data l b ->
  w = wrapped_mint_of e u p /\ b = backpointer_of e w /\ spl_or_t22 p /\ spl_or_t22 (a_owner (l u)) /\
  (exists m, mint_account l' w p m /\ m_auth m = Some (authority_of e w) /\ m_supply m = 0) /\
  a_owner (l' b) = tw_id /\ a_data (l' b) = DKey u.
Proof.
  intros cu e accounts idem l l' w b u x p [rest Hk] H Nw Nb. unfold create_outcome_of, process_create_mint in H. cbn [c_infos c_prog] in H.
  destruct accounts as [|wi [|bi [|ui [|xi [|pi additional]]]]]; try discriminate H. cbn [map app] in Hk. inversion Hk; subst w b u x p rest. clear Hk. cbv zeta in H.
  set (c := mkCtx tw_id (wi :: bi :: ui :: xi :: pi :: additional)) in *.
  set (w := i_key wi) in *; set (b := i_key bi) in *; set (u := i_key ui) in *; set (p := i_key pi) in *.
  apply bind_ok in H; destruct H as [wm [Hw H]]. apply get_wrapped_mint_address_with_seed_ok in Hw. destruct Hw as [Hw _].
  apply bind_ok in H; destruct H as [bm [Hb H]]. apply get_backpointer_with_seed_ok in Hb. destruct Hb as [Hb _].
  apply bind_ok in H; destruct H as [[] [Hww H]]. apply guard_ok, pk_eqb_eq in Hww.
  apply bind_ok in H; destruct H as [[] [Hbb H]]. apply guard_ok, pk_eqb_eq in Hbb.
  apply bind_ok in H; destruct H as [[] [Hou H]]. apply guard_ok, token_program_eqb in Hou.
  assert (Ew : w = wrapped_mint_of e u p) by (rewrite Hww; exact Hw). assert (Eb : b = backpointer_of e w) by (rewrite Hbb; exact Hb).
  split; [exact Ew|]. split; [exact Eb|].
  assert (Nbw : b <> w) by (rewrite Eb; apply backpointer_neq_seed).
  unfold no_data in *. rewrite Nw, Nb in H. change ((0 <? 0) || (0 <? 0)) with false in H. cbv iota in H.
  apply bind_ok in H; destruct H as [space [Hsp H]].
  apply bind_ok in H; destruct H as [[] [_ H]].
  apply bind_ok in H; destruct H as [l1 [_ H]].
  apply bind_ok in H; destruct H as [l2 [_ H]].
  apply bind_ok in H; destruct H as [l3 [_ H]].
  apply bind_ok in H; destruct H as [fd [_ H]].
  apply bind_ok in H; destruct H as [auth [Hau H]]. apply get_wrapped_mint_authority_ok in Hau.
  apply bind_ok in H; destruct H as [ix [Hix H]].
  apply bind_ok in H; destruct H as [l4 [H4 H]].
  apply bind_ok in H; destruct H as [[] [_ H]].
  apply bind_ok in H; destruct H as [l5 [H5 H]].
  apply bind_ok in H; destruct H as [l6 [H6 H]].
  pose proof (invoke_init_mint_inv _ _ _ _ _ _ _ _ _ _ Hix H4) as (Hp & Wr & m & Hm & Hlen & E4).
  assert (Ow : a_owner (l3 w) = p).
  { unfold ix_initialize_mint2 in Hix. apply bind_ok in Hix. destruct Hix as ([] & _ & Hix). injection Hix as <-.
    unfold invoke in H4. apply invoke_any_inv in H4. destruct H4 as [H4 _]. cbn [ix_prog ix_metas ix_body] in H4.
    rewrite exec_program_tok in H4 by exact Hp. unfold tok_exec in H4. cbn [map meta_w i_key] in H4. unfold tok_init_mint in H4. inv_ok.
    match goal with X : set_data _ _ _ _ _ = Ok _ |- _ => apply set_data_inv in X; destruct X as (_ & O & _); exact O end. }
  assert (Hts : tw_id <> system_id) by discriminate.
  rewrite Hb in H5, H6. rewrite <- Eb in H5, H6.
  destruct (alloc_assign_inv _ _ _ _ _ _ _ _ _ _ _ _ _ _ Hts H5 H6) as (_ & _ & _ & L6b & L6o).
  unfold write_key in H. do 3 (apply bind_ok in H; destruct H as [[] [_ H]]). injection H as <-.
  split; [exact Hp|]. split; [exact Hou|]. split; [|split].
  - exists (mkMint (Some auth) 0 (snd fd) true (fst fd) (m_exts m) (m_len m)).
    rewrite Hau. split; [|split; reflexivity]. rewrite Hau in E4.
    split; [|split; [|reflexivity]]; rewrite (upd_other _ b) by exact Nbw; rewrite L6o by auto; rewrite E4, upd_same; [exact Ow|reflexivity].
  - rewrite upd_same. unfold with_data. rewrite L6b. reflexivity.
  - rewrite upd_same. reflexivity.
Qed.
Print Assumptions C55_any_customizer.

(** C55: with a customizer that adds [xs], the new mint has exactly these extensions (on Token-2022), the unwrapped mint's decimals, and
    the freeze authority the customizer names; only mint and backpointer change. *)
Theorem C55_creates : forall cu xs freeze e accounts idempotent l l' w b u x p,
  adds cu xs freeze ->
  keys_are accounts [w; b; u; x; p] -> create_outcome_of cu e accounts idempotent l = Ok l' -> no_data l w -> no_data l b ->
  exists mu ys, mint_data l u mu /\ given_extensions p xs ys /\
    e_rent e (mint_space ys) <= lamports l w /\ e_rent e 32 <= lamports l b /\
    l' w = mkAcc (lamports l w) (DMint (mkMint (Some (authority_of e w)) 0 (m_decimals mu) true (freeze mu) ys (mint_space ys))) p /\
    l' b = mkAcc (lamports l b) (DKey u) tw_id /\
    forall k, k <> w -> k <> b -> l' k = l k.
Proof.
  intros cu xs freeze e accounts idem l l' w b u x p (Asp & Ain & Afd) [rest Hk] H Nw Nb.
  unfold create_outcome_of, process_create_mint in H. cbn [c_infos c_prog] in H.
  destruct accounts as [|wi [|bi [|ui [|xi [|pi additional]]]]]; try discriminate H. cbn [map app] in Hk. inversion Hk; subst w b u x p rest. clear Hk. cbv zeta in H.
  set (c := mkCtx tw_id (wi :: bi :: ui :: xi :: pi :: additional)) in *.
  set (w := i_key wi) in *; set (b := i_key bi) in *; set (u := i_key ui) in *; set (p := i_key pi) in *.
  apply bind_ok in H; destruct H as [wm [Hw H]]. apply get_wrapped_mint_address_with_seed_ok in Hw. destruct Hw as [Hw _].
  apply bind_ok in H; destruct H as [bm [Hb H]]. apply get_backpointer_with_seed_ok in Hb. destruct Hb as [Hb _].
  apply bind_ok in H; destruct H as [[] [Hww H]]. apply guard_ok, pk_eqb_eq in Hww.
  apply bind_ok in H; destruct H as [[] [Hbb H]]. apply guard_ok, pk_eqb_eq in Hbb.
  apply bind_ok in H; destruct H as [[] [Hou H]]. apply guard_ok, token_program_eqb in Hou.
  assert (Ew : w = wrapped_mint_of e u p) by (rewrite Hww; exact Hw). assert (Eb : b = backpointer_of e w) by (rewrite Hbb; exact Hb).
  assert (Nwu : w <> u) by (rewrite Ew; apply wrapped_neq_unwrapped).
  assert (Nbw : b <> w) by (rewrite Eb; apply backpointer_neq_seed).
  unfold no_data in *. rewrite Nw, Nb in H. change ((0 <? 0) || (0 <? 0)) with false in H. cbv iota in H.
  apply bind_ok in H; destruct H as [space [Hsp H]].
  apply bind_ok in H; destruct H as [[] [Hrw H]]. apply guard_ok, N.leb_le in Hrw.
  apply bind_ok in H; destruct H as [l1 [H1 H]].
  apply bind_ok in H; destruct H as [l2 [H2 H]].
  apply bind_ok in H; destruct H as [l3 [H3 H]].
  apply bind_ok in H; destruct H as [fd [Hfd H]].
  apply bind_ok in H; destruct H as [auth [Hau H]]. apply get_wrapped_mint_authority_ok in Hau.
  apply bind_ok in H; destruct H as [ix [Hix H]].
  apply bind_ok in H; destruct H as [l4 [H4 H]].
  apply bind_ok in H; destruct H as [[] [Hrb H]]. apply guard_ok, N.leb_le in Hrb.
  apply bind_ok in H; destruct H as [l5 [H5 H]].
  apply bind_ok in H; destruct H as [l6 [H6 H]].
  pose proof (invoke_init_mint_inv _ _ _ _ _ _ _ _ _ _ Hix H4) as (Hp & Wr & m & Hm & Hlen & E4).
  rewrite Hw in H1, H2. rewrite Hb in H5, H6. rewrite <- Ew in H1, H2. rewrite <- Eb in H5, H6.
  assert (Hps : p <> system_id) by (destruct Hp as [->| ->]; discriminate).
  destruct (alloc_assign_inv _ _ _ _ _ _ _ _ _ _ _ _ _ _ Hps H1 H2) as (_ & _ & _ & L2w & L2o).
  assert (Hts : tw_id <> system_id) by discriminate.
  destruct (alloc_assign_inv _ _ _ _ _ _ _ _ _ _ _ _ _ _ Hts H5 H6) as (_ & _ & _ & L6b & L6o).
  assert (Em : exists ys, given_extensions p xs ys /\ space = mint_space ys /\
               a_lamports (l3 w) = a_lamports (l w) /\ a_owner (l3 w) = p /\ (forall k, k <> w -> l3 k = l k) /\ m_exts m = ys /\ m_len m = mint_space ys).
  { unfold given_extensions. destruct (pk_eqb p t22_id) eqn:Ep.
    - apply pk_eqb_eq in Ep. exists xs. split; [right; auto|]. rewrite Asp in Hsp. injection Hsp as <-. split; [reflexivity|].
      rewrite Ain in H3.
      assert (Z : exists m0, unpack_uninit_mint (a_data (l2 w)) = Ok m0 /\ m_exts m0 = []).
      { rewrite L2w. cbn [a_data]. rewrite unpack_uninit_zeros; [eexists; split; reflexivity|].
        unfold mint_space, adjust_multisig. destruct xs as [|x0 r0]; [unfold mint_base_len; lia|]. destruct (_ =? _); lia. }
      destruct Z as (m0 & Hm0 & X0). destruct (init_all_inv _ _ _ _ _ _ _ _ H3 Hm0) as (m' & A & B & _ & D & O & K).
      rewrite Hm in A. injection A as <-. rewrite X0 in B. cbn [app] in B.
      rewrite L2w in D, O. cbn [a_lamports a_owner] in D, O. split; [exact D|]. split; [exact O|]. split; [intros k N0; rewrite (K k N0); apply L2o; exact N0|].
      split; [exact B|]. rewrite Hlen, B. reflexivity.
    - exists []. destruct Hp as [Hp|Hp]; [|exfalso; apply pk_eqb_neq in Ep; apply Ep; exact Hp]. split; [left; split; [exact Hp|reflexivity]|]. injection Hsp as <-. split; [reflexivity|].
      injection H3 as <-. rewrite L2w. cbn [a_lamports a_owner]. split; [reflexivity|]. split; [reflexivity|]. split; [exact L2o|].
      rewrite L2w in Hm. cbn [a_data] in Hm. rewrite unpack_uninit_zeros in Hm by (unfold mint_base_len; lia). injection Hm as <-. split; reflexivity. }
  destruct Em as (ys & Gy & -> & E3l & E3o & E3k & Emx & Eml).
  assert (Lu : l3 u = l u) by (apply E3k; auto).
  rewrite Afd, Lu in Hfd. apply bind_ok in Hfd; destruct Hfd as [mu [Hmu Hfd]]. injection Hfd as <-. apply pod_unpack_mint_inv in Hmu.
  assert (Lb4 : l4 b = l b) by (rewrite E4, upd_other by auto; apply E3k; auto).
  rewrite Lb4 in *.
  unfold write_key in H. do 3 (apply bind_ok in H; destruct H as [[] [_ H]]). injection H as <-.
  exists mu, ys. split; [exact Hmu|]. split; [exact Gy|]. split; [exact Hrw|]. split; [exact Hrb|]. split; [|split].
  - rewrite upd_other by auto. rewrite L6o by auto. rewrite E4, upd_same. unfold with_data. rewrite E3l, E3o, Emx, Eml, Hau. reflexivity.
  - rewrite upd_same. unfold with_data. rewrite L6b. reflexivity.
  - intros k K1 K2. rewrite upd_other by auto. rewrite L6o by auto. rewrite E4, upd_other by auto. apply E3k; auto.
Qed.
Print Assumptions C55_creates.

Lemma eval_aux cu xs freeze e c idem l w b u x p rest mu :
  adds cu xs freeze -> possible_extensions xs ->
  map i_key (c_infos c) = w :: b :: u :: x :: p :: rest -> c_prog c = tw_id ->
  has_key (c_infos c) system_id = true ->
  w = wrapped_mint_of e u p -> b = backpointer_of e w -> addresses_exist e u p ->
  token_program p -> token_program (a_owner (l u)) -> pod_unpack_mint (a_data (l u)) = Ok mu ->
  unallocated l w -> unallocated l b -> is_wr (c_infos c) w = true -> is_wr (c_infos c) b = true ->
  forall ys, given_extensions p xs ys ->
  (e_rent e (mint_space ys) <= a_lamports (l w) -> e_rent e 32 <= a_lamports (l b) ->
     exists l', process_create_mint cu e c idem l = Ok l') /\
  (a_lamports (l w) < e_rent e (mint_space ys) \/ a_lamports (l b) < e_rent e 32 ->
     process_create_mint cu e c idem l = Err EAccountNotRentExempt).
Proof.
  intros (Asp & Ain & Afd) (Pi & Pd & Pf & Pl) Hk Hcp Hsys Ew Eb (Fw & Fa & Fb) Hp Hou Hmu [Uw1 Uw2] [Ub1 Ub2] Wrw Wrb ys Gy.
  apply derivable_findable in Fw. apply derivable_findable in Fa. apply derivable_findable in Fb.
  pose proof (find_pda_findable _ _ _ Fw) as Gw. pose proof (find_pda_findable _ _ _ Fa) as Ga. pose proof (find_pda_findable _ _ _ Fb) as Gb.
  rewrite <- Ew in Ga, Gb.
  assert (Nwu : w <> u) by (rewrite Ew; apply wrapped_neq_unwrapped).
  assert (Nbw : b <> w) by (rewrite Eb; apply backpointer_neq_seed).
  assert (Hkp : has_key (c_infos c) p = true) by (apply has_key_keys; rewrite Hk; cbn; auto 6).
  unfold process_create_mint.
  destruct (c_infos c) as [|wi [|bi [|ui [|xi [|pi additional]]]]] eqn:Hi; try discriminate Hk.
  cbn [map] in Hk. injection Hk as K1 K2 K3 K4 K5 K6. rewrite <- Hi in *. cbv zeta. rewrite K1, K2, K3, K5.
  unfold get_wrapped_mint_address_with_seed, get_wrapped_mint_address_with_seed_for_program. rewrite Gw. cbn [bind].
  unfold get_wrapped_mint_backpointer_address_with_seed, get_wrapped_mint_backpointer_address_with_seed_for_program. rewrite Gb. cbn [bind fst snd].
  change (pda e (wrapped_mint_seeds u p) tw_id) with (wrapped_mint_of e u p). rewrite <- Ew.
  change (pda e (backpointer_seeds w) tw_id) with (backpointer_of e w). rewrite <- Eb.
  rewrite !pk_eqb_refl. cbn [guard bind]. rewrite (proj2 (token_program_eqb _) Hou). cbn [guard bind].
  rewrite Uw1, Ub1. cbn [data_len length]. cbn [N.of_nat N.ltb N.compare orb].
  assert (Sw : create_program_address e (wrapped_mint_signer_seeds u p (find_bump e (wrapped_mint_seeds u p) tw_id)) tw_id = Ok w).
  { rewrite Ew. exact (find_pda_create _ _ _ _ _ Gw). }
  assert (Sb : create_program_address e (backpointer_signer_seeds w (find_bump e (backpointer_seeds w) tw_id)) tw_id = Ok b).
  { rewrite Eb. exact (find_pda_create _ _ _ _ _ Gb). }
  assert (Ys : ys = if pk_eqb p t22_id then xs else []).
  { destruct Gy as [[-> ->]|[-> ->]]; reflexivity. }
  assert (Hspace : (if pk_eqb p t22_id then cu_space cu else Ok mint_base_len) = Ok (mint_space ys)).
  { rewrite Ys. destruct (pk_eqb p t22_id); [exact Asp|reflexivity]. }
  rewrite Hspace. cbn [bind].
  destruct (N.leb_spec (e_rent e (mint_space ys)) (a_lamports (l w))) as [Hrw|Hrw].
  2: { cbn [guard bind]. split; [lia|]. intros _. reflexivity. }
  cbn [guard bind].
  assert (Hspc : mint_space ys <= 10485760) by (rewrite Ys; destruct (pk_eqb p t22_id); [exact Pl|unfold mint_space, mint_base_len; lia]).
  assert (Hmin : 82 <= mint_space ys).
  { unfold mint_space, adjust_multisig. destruct ys as [|x0 r0]; [unfold mint_base_len; lia|]. destruct (_ =? _); lia. }
  rewrite (allocate_eval e c w (mint_space ys) _ l); [|rewrite Hcp; exact Sw|exact Hsys|exact Wrw|rewrite Uw1; reflexivity|exact Uw2|exact Hspc|intros []]. cbn [bind].
  set (l1 := upd l w (with_data (DRaw (zeros (mint_space ys))) (l w))).
  assert (L1w : l1 w = mkAcc (a_lamports (l w)) (DRaw (zeros (mint_space ys))) system_id).
  { unfold l1. rewrite upd_same. unfold with_data. rewrite Uw2. reflexivity. }
  assert (Hps : p <> system_id) by (destruct Hp as [->| ->]; discriminate).
  rewrite (assign_eval e c w p _ (mint_space ys) l1); [|rewrite Hcp; exact Sw|exact Hsys|exact Wrw|rewrite L1w; reflexivity|exact Hps|rewrite L1w; reflexivity|intros []]. cbn [bind].
  set (l2 := upd l1 w (with_owner p (l1 w))).
  assert (L2w : l2 w = mkAcc (a_lamports (l w)) (DRaw (zeros (mint_space ys))) p).
  { unfold l2. rewrite upd_same, L1w. reflexivity. }
  assert (L2o : forall k, k <> w -> l2 k = l k).
  { intros k K. unfold l2, l1. rewrite !upd_other by auto. reflexivity. }
  assert (H3 : exists l3 m, (if pk_eqb p t22_id then cu_init cu e c w p l2 else Ok l2) = Ok l3 /\
             unpack_uninit_mint (a_data (l3 w)) = Ok m /\ m_exts m = ys /\ m_len m = mint_space ys /\ a_owner (l3 w) = p /\
             a_lamports (l3 w) = a_lamports (l w) /\ forall k, k <> w -> l3 k = l k).
  { assert (U2 : unpack_uninit_mint (a_data (l2 w)) = Ok (mkMint None 0 0 false None [] (mint_space ys))) by (rewrite L2w; apply unpack_uninit_zeros; exact Hmin).
    destruct (pk_eqb p t22_id) eqn:Ep.
    - apply pk_eqb_eq in Ep. subst ys. rewrite Ain.
      destruct (init_all_eval e c w xs l2 _ U2 Pi Pd) as [l3 H3].
      + intros x0 y _ [].
      + cbn [m_exts m_len app]. destruct xs as [|x0 r0]; [right; reflexivity|left]. unfold mint_space, adjust_multisig. destruct (_ =? _); lia.
      + rewrite L2w. exact Ep.
      + exact Wrw.
      + rewrite <- Ep. exact Hkp.
      + rewrite <- Ep in H3. exists l3. destruct (init_all_inv _ _ _ _ _ _ _ _ H3 U2) as (m & A & B & C & D & O & K). exists m.
        split; [exact H3|]. split; [exact A|]. split; [exact B|]. split; [exact C|]. rewrite L2w in D, O. split; [exact O|]. split; [exact D|].
        intros k N0. rewrite (K k N0). apply L2o. exact N0.
    - exists l2, (mkMint None 0 0 false None [] (mint_space ys)). split; [reflexivity|]. split; [exact U2|]. subst ys. rewrite L2w. cbn [m_exts m_len a_owner a_lamports].
      repeat split; auto. }
  destruct H3 as (l3 & m & -> & Hm & Hmx & Hml & O3 & L3 & L3o). cbn [bind].
  rewrite Afd, (L3o u) by auto. rewrite Hmu. cbn [bind fst snd].
  unfold get_wrapped_mint_authority, get_wrapped_mint_authority_for_program, get_wrapped_mint_authority_with_seed_for_program.
  rewrite Ga. cbn [bind fst].
  destruct (init_mint_eval e c p w (pda e (wrapped_mint_authority_seeds w) tw_id) (freeze mu) (m_decimals mu) l3 m) as (ix & Hix & Hin); auto.
  { rewrite Hml, Hmx. reflexivity. }
  { rewrite Hml, L3. exact Hrw. }
  { intros ->. rewrite Hmx, Ys. reflexivity. }
  { assert (Y : forall y, In y ys -> In y xs) by (rewrite Ys; destruct (pk_eqb p t22_id); [auto|intros y []]).
    unfold ext_default_state. rewrite Hmx. clear - Y Pi Pf. induction ys as [|y r IH]; [reflexivity|]. cbn [find_map].
    destruct y as [| | |st| | | | | | | |]; try (apply IH; intros z Hz; apply Y; right; exact Hz).
    specialize (Pi _ (Y _ (or_introl eq_refl))). destruct st.
    - discriminate Pi.
    - reflexivity.
    - exfalso. apply Pf. apply Y. left. reflexivity. }
  rewrite Hix. cbn [bind]. rewrite Hin. cbn [bind].
  set (l4 := upd l3 w _).
  assert (L4b : l4 b = l b) by (unfold l4; rewrite upd_other by auto; apply L3o; auto).
  rewrite L4b.
  destruct (N.leb_spec (e_rent e 32) (a_lamports (l b))) as [Hrb|Hrb].
  2: { cbn [guard bind]. split; [lia|]. intros _. reflexivity. }
  cbn [guard bind]. split; [|lia]. intros _ _.
  rewrite (allocate_eval e c b 32 _ l4); [|rewrite Hcp; exact Sb|exact Hsys|exact Wrb|rewrite L4b, Ub1; reflexivity|rewrite L4b; exact Ub2|lia|intros []]. cbn [bind].
  set (l5 := upd l4 b _).
  assert (L5b : l5 b = mkAcc (a_lamports (l b)) (DRaw (zeros 32)) system_id).
  { unfold l5. rewrite upd_same. unfold with_data. rewrite L4b, Ub2. reflexivity. }
  rewrite Hcp. rewrite (assign_eval e c b tw_id _ 32 l5); [|rewrite Hcp; exact Sb|exact Hsys|exact Wrb|rewrite L5b; reflexivity|discriminate|rewrite L5b; reflexivity|intros []]. cbn [bind].
  unfold write_key. rewrite upd_same, L5b. cbn [with_owner a_data]. rewrite bind_guard_true by reflexivity.
  rewrite Wrb. cbn [orb guard bind]. rewrite Hcp. cbn [a_owner with_owner]. rewrite pk_eqb_refl. cbn [guard bind]. eexists; reflexivity.
Qed.
(** C55: and it works: with the right accounts, creation succeeds iff both accounts are rent exempt. *)
Theorem C55_iff : forall cu xs freeze e accounts idempotent l w b u p ys,
  adds cu xs freeze -> possible_extensions xs -> given_extensions p xs ys ->
  keys_are accounts [w; b; u; system_id; p] -> writable accounts w -> writable accounts b ->
  addresses_exist e u p -> w = wrapped_mint_of e u p -> b = backpointer_of e w ->
  (exists mu, mint_data l u mu) -> spl_or_t22 (a_owner (l u)) -> spl_or_t22 p ->
  unallocated l w -> unallocated l b ->
  ((exists l', create_outcome_of cu e accounts idempotent l = Ok l') <-> e_rent e (mint_space ys) <= lamports l w /\ e_rent e 32 <= lamports l b) /\
  (~ (e_rent e (mint_space ys) <= lamports l w /\ e_rent e 32 <= lamports l b) -> create_outcome_of cu e accounts idempotent l = Err EAccountNotRentExempt).
Proof.
  intros cu xs freeze e accounts idem l w b u p ys A P G [more Hk] Ww Wb Ad Ew Eb [mu [Hd Hi]] Hu Hp Uw Ub.
  assert (K : has_key accounts system_id = true). { apply has_key_keys. rewrite Hk. cbn. auto. }
  destruct (eval_aux cu xs freeze e (mkCtx tw_id accounts) idem l w b u system_id p more mu A P Hk eq_refl K Ew Eb Ad Hp Hu) with (ys := ys)
    as [E1 E2]; auto.
  { rewrite Hd. apply pod_unpack_mint_ok. exact Hi. }
  { apply writable_is_wr. exact Ww. } { apply writable_is_wr. exact Wb. }
  unfold create_outcome_of, lamports in *.
  assert (F : ~ (e_rent e (mint_space ys) <= a_lamports (l w) /\ e_rent e 32 <= a_lamports (l b)) ->
    process_create_mint cu e (mkCtx tw_id accounts) idem l = Err EAccountNotRentExempt).
  { intro N. apply E2. destruct (N.le_gt_cases (e_rent e (mint_space ys)) (a_lamports (l w))); [|auto].
    destruct (N.le_gt_cases (e_rent e 32) (a_lamports (l b))); [tauto|auto]. }
  split; [|exact F]. split.
  - intros [l' H]. destruct (N.le_gt_cases (e_rent e (mint_space ys)) (a_lamports (l w))); [|rewrite E2 in H by auto; discriminate].
    destruct (N.le_gt_cases (e_rent e 32) (a_lamports (l b))); [auto|rewrite E2 in H by auto; discriminate].
  - intros [X Y]. apply E1; assumption.
Qed.
Print Assumptions C55_iff.

(** The two customizers shipped besides the default. *)
Definition compliance_extensions : list mint_ext :=
  [ MxPermanentDelegate (Some PERMANENT_DELEGATE);
    MxConfidentialTransferMint (Some CONFIDENTIAL_TRANSFER_AUTHORITY) true (Some AUDITOR_ELGAMAL);
    MxDefaultAccountState Initialized;
    MxPausable (Some PAUSE_AUTHORITY) false ].
Theorem C55_compliance : adds compliance_customizer compliance_extensions (fun _ => Some FREEZE_AUTHORITY) /\ possible_extensions compliance_extensions /\
  mint_space compliance_extensions = 313.
Proof.
  split; [|split; [|reflexivity]].
  - split; [reflexivity|]. split; [|reflexivity]. intros e c w p l. cbn [compliance_customizer cu_init init_all compliance_extensions]. unfold compliance_init.
    repeat (destruct (invoke_init_ext _ _ _ _ _ _); [cbn [bind]|reflexivity]). reflexivity.
  - split; [intros x [<-|[<-|[<-|[<-|[]]]]]; reflexivity|]. split; [|split].
    + cbn [all_different compliance_extensions]. repeat split; intros y H; repeat (destruct H as [<-|H]; [reflexivity|]); destruct H.
    + intros [H|[H|[H|[H|[]]]]]; discriminate H.
    + vm_compute. discriminate.
Qed.
Theorem C55_no_extension : adds no_extension_customizer [] m_freeze /\ possible_extensions [].
Proof.
  split; [split; [reflexivity|split; reflexivity]|]. split; [intros x []|]. split; [exact I|]. split; [intros []|]. vm_compute. discriminate.
Qed.
Print Assumptions C55_compliance.

(** (Finding) Metadata cannot be copied to the Token-2022 mints of these two customizers: they have no metadata pointer, and without one
    Token-2022 refuses metadata. *)
Theorem C55_unsyncable_refuted : forall e accounts l l' w a u p m,
  keys_are accounts [w; a; u; p] -> mint_account l w t22_id m -> no_pointer m -> ext_metadata m = None ->
  ~ succeeds e accounts SyncMetadataToToken2022 l l'.
Proof.
  intros e accounts l l' w a u p m [more Hk] (Ow & Dm & Im) Np Nm H. unfold succeeds in H. rewrite sync_t22_outcome in H.
  unfold process_sync_metadata_to_token_2022 in H. cbn [c_infos] in H.
  destruct accounts as [|wi [|ai [|ui [|pi rest]]]]; try discriminate H. cbn [map app] in Hk. inversion Hk; subst w a u p more. clear Hk. cbv zeta in H.
  apply bind_ok in H; destruct H as [[] [P H]]. apply guard_ok, pk_eqb_eq in P. apply bind_ok in H; destruct H as [[] [_ H]].
  apply bind_ok in H; destruct H as [wm [_ H]]. apply bind_ok in H; destruct H as [[] [_ H]].
  apply bind_ok in H; destruct H as [am [_ H]]. apply bind_ok in H; destruct H as [[] [_ H]].
  apply bind_ok in H; destruct H as [um [_ H]]. rewrite Dm, (pod_unpack_mint_ok m Im) in H. cbn [bind] in H. rewrite Nm in H.
  apply bind_ok in H; destruct H as [l1 [H _]]. apply invoke_any_inv in H. destruct H as [H _]. cbn [ix_md_initialize ix_prog ix_metas ix_body] in H.
  rewrite P in H. rewrite exec_program_tok in H by (right; reflexivity). unfold tok_exec in H. cbn [map meta_w meta_r i_key] in H. unfold tok_md_initialize in H.
    apply bind_ok in H; destruct H as [[] [_ H]]. apply bind_ok in H; destruct H as [[] [_ H]]. apply bind_ok in H; destruct H as [[] [_ H]].
    apply bind_ok in H; destruct H as [m' [X H]]. apply unpack_mint_inv in X. destruct X as (D & _). rewrite Dm in D. injection D as <-.
    apply bind_ok in H; destruct H as [[] [_ H]]. apply bind_ok in H; destruct H as [[] [_ H]].
    unfold no_pointer in Np. rewrite Np in H. discriminate H.
Qed.
Print Assumptions C55_unsyncable_refuted.

(** ** Examples: the unwrapped mint of the demo, wrapped with each of the two customizers. *)
Definition demo_rich : ledger := upd demo0 (d_w t22_id) (with_lamports 10000 (demo0 (d_w t22_id))).
Example C55_example : exists l' m,
  create_outcome_of compliance_customizer demo_env (tx_metas i_create) false demo_rich = Ok l' /\
  mint_account l' (d_w t22_id) t22_id m /\ m_exts m = compliance_extensions /\ m_freeze m = Some FREEZE_AUTHORITY /\ m_decimals m = 6 /\
  ext_permanent_delegate m = Some PERMANENT_DELEGATE /\
  (forall accounts a u p l'', keys_are accounts [d_w t22_id; a; u; p] -> ~ succeeds demo_env accounts SyncMetadataToToken2022 l' l'').
Proof.
  assert (K : keys_are (tx_metas i_create) [d_w t22_id; d_b t22_id; d_u; system_id; t22_id]) by (exists []; vm_compute; reflexivity).
  destruct C55_compliance as (A & P & S).
  assert (Nw : unallocated demo_rich (d_w t22_id)) by (split; vm_compute; reflexivity).
  assert (Nb : unallocated demo_rich (d_b t22_id)) by (split; vm_compute; reflexivity).
  destruct (C55_iff compliance_customizer compliance_extensions _ demo_env (tx_metas i_create) false demo_rich (d_w t22_id) (d_b t22_id) d_u t22_id compliance_extensions A P) as [[_ I] _].
  - right. split; reflexivity.
  - exact K.
  - exists (mkInfo (d_w t22_id) false true); vm_compute; auto.
  - exists (mkInfo (d_b t22_id) false true); vm_compute; auto.
  - repeat split; apply demo_derivable.
  - reflexivity.
  - reflexivity.
  - exists d_mint. split; vm_compute; reflexivity.
  - left. vm_compute. reflexivity.
  - right. reflexivity.
  - exact Nw.
  - exact Nb.
  - destruct I as [l' H]. { split; vm_compute; discriminate. }
    destruct (C55_creates _ _ _ _ _ _ _ _ _ _ _ _ _ A K H) as (mu & ys & (Du & _) & G & _ & _ & Lw & _).
    { destruct Nw as [X _]. unfold no_data. rewrite X. reflexivity. }
    { destruct Nb as [X _]. unfold no_data. rewrite X. reflexivity. }
    destruct G as [[X _]|[_ ->]]; [exfalso; discriminate X|].
    exists l'. eexists. split; [exact H|]. split; [unfold mint_account, mint_data; rewrite Lw; split; [reflexivity|split; [reflexivity|reflexivity]]|].
    split; [reflexivity|]. split; [reflexivity|]. split; [|split; [reflexivity|]].
    + cbn [m_decimals]. revert Du. clear. vm_compute. intro X. injection X as <-. reflexivity.
    + intros accounts a u p l'' Kk. eapply C55_unsyncable_refuted; [exact Kk|unfold mint_account, mint_data; rewrite Lw; split; [reflexivity|split; [reflexivity|reflexivity]]|reflexivity|reflexivity].
Qed.
