(** * MatchProofs.v — as long as a mint cannot be closed (and re-created differently), its escrows carry
    exactly the extensions the mint demands. *)
From Verif Require Import Base Codec State Pda TokenProg Cpi Ata Meta Processor Tac PdaProofs TokProofs FrameProofs ProcProofs
  Spec SpecLemmas WrapProofs CreateProofs MapProofs SyncProofs SyncProofs2 CloseProofs InvTok InvCons HistorySpec InvState InvTw InvHist EscProofs HistProofs.

Definition kept_exts (x x' : list mint_ext) : Prop :=
  find_map (fun e => match e with MxMintCloseAuthority a => Some a | _ => None end) x' =
  find_map (fun e => match e with MxMintCloseAuthority a => Some a | _ => None end) x /\
  required_init_account_exts x' = required_init_account_exts x.
Definition mints_kept (l l' : ledger) : Prop :=
  forall u p m, token_program p -> mint_account l u p m -> ext_close_authority m = None ->
    exists m', mint_account l' u p m' /\ ext_close_authority m' = None /\ required_init_account_exts (m_exts m') = required_init_account_exts (m_exts m) /\
      m_decimals m' = m_decimals m.
Definition types_kept (l l' : ledger) : Prop :=
  forall w u b t', is_tw_pda w = true -> a_data (l' (ata_key w t22_id u b)) = DTok t' ->
    exists t, a_data (l (ata_key w t22_id u b)) = DTok t /\ map acct_ext_type_of (t_exts t') = map acct_ext_type_of (t_exts t).
Definition all_kept (l l' : ledger) : Prop := mints_kept l l' /\ types_kept l l'.

Lemma all_kept_refl l : all_kept l l.
Proof. split; [intros u p m T H C; exists m; auto|intros w u b t P D; exists t; auto]. Qed.
Lemma all_kept_trans l1 l2 l3 : all_kept l1 l2 -> all_kept l2 l3 -> all_kept l1 l3.
Proof.
  intros [M1 T1] [M2 T2]. split.
  - intros u p m T H C. destruct (M1 u p m T H C) as (m1 & H1 & C1 & R1 & Q1). destruct (M2 u p m1 T H1 C1) as (m2 & H2 & C2 & R2 & Q2). exists m2. split; [exact H2|]. split; [exact C2|]. split; congruence.
  - intros w u b t P D. destruct (T2 w u b t P D) as (t1 & D1 & E1). destruct (T1 w u b t1 P D1) as (t2 & D2 & E2). exists t2. split; [exact D2|congruence].
Qed.
Lemma mints_kept_same (l l' : ledger) : (forall k m, token_program (a_owner (l k)) -> a_data (l k) = DMint m -> same_do (l k) (l' k)) -> mints_kept l l'.
Proof.
  intros H u p m T (O & D & I) C. rewrite <- O in T. destruct (H u m T D) as [E1 E2]. exists m. split; [|split; [exact C|split; reflexivity]]. split; [congruence|]. split; [congruence|exact I].
Qed.
Lemma tame_types l l' : tame_step l l' -> types_kept l l'.
Proof.
  intros H w u b t' P D. destruct (H (ata_key w t22_id u b)) as [[S _]|[N|(_ & t & t1 & D0 & D1 & (_ & _ & _ & _ & E))]].
  - exists t'. split; [congruence|reflexivity].
  - rewrite (is_ata_key w t22_id u b (or_intror eq_refl)) in N. discriminate.
  - exists t. split; [exact D0|]. assert (t1 = t') by congruence. subst t1. exact E.
Qed.
Lemma close_same x y : mint_ext_same x y = true -> required_exts_of x = required_exts_of y /\
  ((exists a, x = MxMintCloseAuthority a) <-> exists a, y = MxMintCloseAuthority a).
Proof. destruct x, y; cbn; intro H; try discriminate; (split; [reflexivity|]); split; intros [? E]; try discriminate; eauto. Qed.
Lemma replace_required x l y : find (mint_ext_same x) l = Some y -> required_init_account_exts (replace_ext x l) = required_init_account_exts l.
Proof.
  unfold required_init_account_exts. induction l as [|z l IH]; cbn; [discriminate|]. destruct (mint_ext_same x z) eqn:E.
  - intros _. cbn. rewrite (proj1 (close_same _ _ E)). reflexivity.
  - intro F. cbn. rewrite (IH F). reflexivity.
Qed.
Definition cla (e : mint_ext) : option (option pubkey) := match e with MxMintCloseAuthority a => Some a | _ => None end.
Lemma replace_close x l y : find (mint_ext_same x) l = Some y -> (forall a, y <> MxMintCloseAuthority a) -> find_map cla (replace_ext x l) = find_map cla l.
Proof.
  induction l as [|z l IH]; cbn; [discriminate|]. destruct (mint_ext_same x z) eqn:E.
  - intros F N. inversion F; subst z. cbn. destruct (close_same _ _ E) as [_ [Q _]].
    assert (Cx : cla x = None) by (destruct x; try reflexivity; exfalso; destruct Q as [? Q]; [eexists; reflexivity|eapply N; exact Q]).
    assert (Cy : cla y = None) by (destruct y; try reflexivity; exfalso; eapply N; reflexivity). rewrite Cx, Cy. reflexivity.
  - intros F N. cbn. rewrite (IH F N). reflexivity.
Qed.
Lemma find_close x l y a : find (mint_ext_same x) l = Some y -> y = MxMintCloseAuthority a -> find_map cla l = Some a.
Proof.
  intros F ->. induction l as [|z l IH]; cbn in F; [discriminate|]. destruct (mint_ext_same x z) eqn:E.
  - inversion F; subst z. reflexivity.
  - cbn. destruct (cla z) eqn:Q; [|exact (IH F)]. exfalso. apply find_some in F. destruct F as [_ F]. destruct x; try discriminate F. destruct z; discriminate.
Qed.
Lemma close_auth_def m : ext_close_authority m = match find_map cla (m_exts m) with Some (Some a) => Some a | _ => None end.
Proof. unfold ext_close_authority, cla. destruct (find_map _ _) as [[|]|]; reflexivity. Qed.
Lemma fee_required n l : required_init_account_exts (set_fee_withheld n l) = required_init_account_exts l /\ find_map cla (set_fee_withheld n l) = find_map cla l.
Proof. unfold required_init_account_exts. induction l as [|z l [IH1 IH2]]; [split; reflexivity|]. destruct z; cbn; rewrite ?IH1, ?IH2; split; reflexivity. Qed.
Lemma md_required t l : required_init_account_exts (replace_metadata t l) = required_init_account_exts l /\ find_map cla (replace_metadata t l) = find_map cla l.
Proof. unfold required_init_account_exts. induction l as [|z l [IH1 IH2]]; [split; reflexivity|]. destruct z; cbn; rewrite ?IH1, ?IH2; split; reflexivity. Qed.
Lemma find_map_app {A B} (f : A -> option B) l1 l2 : find_map f (l1 ++ l2) = match find_map f l1 with Some b => Some b | None => find_map f l2 end.
Proof. induction l1 as [|a l1 IH]; cbn; [reflexivity|]. destruct (f a); [reflexivity|exact IH]. Qed.
Lemma md_append_required t l : required_init_account_exts (l ++ [MxTokenMetadata t]) = required_init_account_exts l /\ find_map cla (l ++ [MxTokenMetadata t]) = find_map cla l.
Proof. unfold required_init_account_exts. rewrite flat_map_app, find_map_app. cbn. rewrite app_nil_r. split; [reflexivity|]. destruct (find_map cla l); reflexivity. Qed.

Lemma changes_mints p ms l l' : changes p ms l l' -> mints_kept l l'.
Proof.
  intros C u q m Tq (O & D & I) N. destruct (C u) as [[E1 E2]|(Op & _ & X)].
  { exists m. split; [|split; [exact N|split; reflexivity]]. split; [congruence|]. split; [congruence|exact I]. }
  assert (p = q) by congruence. subst p. rewrite D in X. remember (a_data (l' u)) as d' eqn:Ed. remember (a_owner (l' u)) as o' eqn:Eo.
  assert (FIN : forall m', d' = DMint m' -> o' = q -> m_init m' = true -> m_decimals m' = m_decimals m -> find_map cla (m_exts m') = find_map cla (m_exts m) ->
    required_init_account_exts (m_exts m') = required_init_account_exts (m_exts m) ->
    exists m', mint_account l' u q m' /\ ext_close_authority m' = None /\ required_init_account_exts (m_exts m') = required_init_account_exts (m_exts m) /\
      m_decimals m' = m_decimals m).
  { intros m' A1 A2 A3 A6 A4 A5. exists m'. split; [|split; [rewrite close_auth_def, A4, <- close_auth_def; exact N|split; [exact A5|exact A6]]]. split; [congruence|]. split; [congruence|exact A3]. }
  destruct X; subst;
    try (match goal with H : DMint m = DMint ?m0 |- _ => assert (m0 = m) by congruence; subst m0; clear H end);
    try discriminate.
  - exfalso. match goal with X : unpack_uninit_mint _ = Ok _ |- _ => cbn in X; rewrite I in X; discriminate X end.
  - exfalso. match goal with X : unpack_uninit_mint _ = Ok _ |- _ => cbn in X; rewrite I in X; discriminate X end.
  - eapply FIN; try reflexivity; assumption.
  - eapply FIN; try reflexivity; assumption.
  - eapply FIN; try reflexivity; assumption.
  - eapply FIN; try reflexivity; assumption.
  - eapply FIN; try reflexivity; try assumption; cbn [m_exts set_mexts].
    + eapply replace_close; [eassumption|]. intros c Q. rewrite close_auth_def in N.
      match goal with F : find _ _ = Some old, G : ext_authority m old = Some _ |- _ =>
        rewrite (find_close _ _ _ _ F Q) in N; rewrite Q in G; cbn in G; rewrite G in N; discriminate N end.
    + eapply replace_required; eassumption.
  - eapply FIN; try reflexivity; try assumption; cbn [m_exts set_mexts]; apply fee_required.
  - eapply FIN; try reflexivity; try assumption; cbn [m_exts set_mexts]; apply md_append_required.
  - eapply FIN; try reflexivity; try assumption; cbn [m_exts set_mexts]; apply md_required.
  - congruence.
Qed.
Lemma changes_types e0 p ms l l' : Inv e0 l -> token_program p -> no_tw_signer ms -> changes p ms l l' -> Esc l -> types_kept l l'.
Proof.
  intros I T N C E w u b t' P D'. pose proof (E w u t22_id b P (or_intror eq_refl)) as S. set (k := ata_key w t22_id u b) in *.
  destruct (C k) as [[S1 _]|(O & _ & X)]; [exists t'; split; [congruence|reflexivity]|].
  destruct S as [[_ B]|(O1 & t & D & G)]; [exfalso; apply (token_not_system _ T); congruence|].
  assert (Eq : p = t22_id) by congruence. subst p. rewrite D in X. pose proof G as (G1 & G2 & G3 & G4 & _).
  assert (NS : ~ signed_for t22_id l (is_sig ms) (t_owner t)) by (rewrite G2; exact (unsigned_pda e0 l t22_id ms _ I N P)).
  assert (NOWN : ~ (t_owner t = system_id \/ t_owner t = incinerator_id)) by (rewrite G2; intros [Q|Q]; rewrite Q in P; discriminate).
  exists t. split; [exact D|]. rewrite D' in X. remember (DTok t') as d' eqn:Ed. remember (a_owner (l' k)) as o' eqn:Eo.
  destruct X as [ | | | | | | | | | | | | |t0 t1 E1 E2 E3 E4 _ X|t0 E1 E2 E3 _]; try discriminate; try match goal with H : unpack_uninit_mint _ = Ok _ |- _ => discriminate H end.
  assert (t0 = t) by congruence. subst t0. assert (t1 = t') by congruence. subst t1.
  destruct X as [? ? ? ? ?|who ? ? ? ? ? ?|? ? ? ? ?|? ? ?|? ? ? ? ?|who Sg Q ? ? ? ?]; try (exfalso; contradiction); try assumption; congruence.
Qed.
Lemma changes_kept e0 p ms l l' : Inv e0 l -> token_program p -> no_tw_signer ms -> changes p ms l l' -> Esc l -> all_kept l l'.
Proof. intros I T N C E. split; [exact (changes_mints _ _ _ _ C)|exact (changes_types _ _ _ _ _ I T N C E)]. Qed.
Lemma world_kept l l' : world_change l l' -> all_kept l l'.
Proof.
  intro W. split.
  - apply mints_kept_same. intros k m O D. destruct (W k) as (A & _). assert (R : ruled (a_owner (l k))) by (destruct O as [O|O]; rewrite O; [left; reflexivity|right; left; reflexivity]).
    destruct (A R) as (A1 & A2 & _). split; assumption.
  - intros w u b t' P D'. destruct (W (ata_key w t22_id u b)) as (_ & _ & _ & _ & A). destruct (A (is_ata_key w t22_id u b (or_intror eq_refl))) as [D _].
    exists t'. split; [congruence|reflexivity].
Qed.
Lemma ata_unused e p wallet mnt l l' : ata_create e p wallet mnt l = Ok l' -> a_owner (l (ata_of e wallet mnt p)) = system_id.
Proof. intro H. apply ata_create_inv in H. cbv zeta in H. destruct H as (m & l1 & O & _). exact O. Qed.
Lemma ata_mints e p wallet mnt l l' : ata_create e p wallet mnt l = Ok l' -> mints_kept l l'.
Proof.
  intro H. destruct (ata_created _ _ _ _ _ _ H) as (Lo & _). pose proof (ata_unused _ _ _ _ _ _ H) as O.
  apply mints_kept_same. intros k m Ok D. rewrite Lo; [split; reflexivity|]. intros ->. rewrite O in Ok. destruct Ok as [Ok|Ok]; discriminate Ok.
Qed.
Lemma ata_other_kept e p wallet mnt l l' : p <> t22_id -> ata_create e p wallet mnt l = Ok l' -> all_kept l l'.
Proof.
  intros Np H. split; [exact (ata_mints _ _ _ _ _ _ H)|]. destruct (ata_created _ _ _ _ _ _ H) as (Lo & _).
  intros w u b t' P D'. exists t'. split; [|reflexivity]. rewrite Lo in D'; [exact D'|]. intro Q.
  destruct (ata_key_of e wallet mnt p) as [b' Q']. rewrite Q' in Q. unfold ata_key in Q. inversion Q. congruence.
Qed.
Lemma spl_not_t22 : spl_token_id <> t22_id.
Proof. discriminate. Qed.
Lemma foreign_kept e0 l l' : Inv e0 l -> Esc l -> foreign_steps l l' -> all_kept l l'.
Proof.
  intros I E F. revert I E. induction F as [l|e cpi ms ix l l1 l2 N X F IH|e wallet mnt l l1 l2 X F IH|l l1 l2 W F IH]; intros I E.
  - apply all_kept_refl.
  - apply tok_exec_step in X. destruct X as (l3 & C & K & H). assert (T : token_program spl_token_id) by (left; reflexivity).
    assert (l1 = l3).
    { destruct H as [H|(m & mnt & n & U & H)]; [exact H|]. unfold run_hook in H. destruct (ext_hook m) as [q|] eqn:Q; [|congruence].
      pose proof (ext_hook_t22 _ _ _ _ T U Q). discriminate. }
    subst l3. apply (all_kept_trans _ l1); [exact (changes_kept _ _ _ _ _ I T N C E)|].
    apply IH; [exact (changes_inv _ _ _ _ _ I T N C K)|]. exact (changes_esc _ _ _ _ _ I T N C E).
  - assert (T : token_program spl_token_id) by (left; reflexivity). destruct (ata_good _ _ _ _ _ _ _ I T X) as (I1 & _).
    apply (all_kept_trans _ l1); [apply (ata_other_kept _ _ _ _ _ _ spl_not_t22 X)|].
    apply IH; [exact I1|]. exact (ata_esc _ _ _ _ _ _ T X E).
  - destruct (world_good _ _ _ I W) as (I1 & _). apply (all_kept_trans _ l1); [exact (world_kept _ _ W)|]. apply IH; [exact I1|exact (world_esc _ _ W E)].
Qed.
Lemma hook_kept e0 e m ms n l l' : lawful e0 e -> Inv e0 l -> Esc l -> run_hook e m ms n l = Ok l' -> all_kept l l'.
Proof.
  intros [_ L] I E H. unfold run_hook in H. destruct (ext_hook m) as [p|]; [|inversion H; subst; apply all_kept_refl].
  destruct (e_hook e p ms n l) as [x|] eqn:Q; [|discriminate]. cbn in H. destruct (balanced _ _ _); [|discriminate]. cbn in H. inversion H; subst.
  apply (foreign_kept e0); [exact I|exact E|]. exact (L _ _ _ _ _ Q).
Qed.
Lemma tok_exec_kept e0 e p cpi ms ix l l' :
  lawful e0 e -> Inv e0 l -> Esc l -> token_program p -> no_tw_signer ms -> tok_exec e p cpi ms ix l = Ok l' -> all_kept l l'.
Proof.
  intros L I E T N X. apply tok_exec_step in X. destruct X as (l3 & C & K & H).
  pose proof (changes_inv _ _ _ _ _ I T N C K) as I3. pose proof (changes_esc _ _ _ _ _ I T N C E) as E3.
  pose proof (changes_kept _ _ _ _ _ I T N C E) as K3.
  destruct H as [->|(m & mnt & n & _ & H)]; [exact K3|exact (all_kept_trans _ _ _ K3 (hook_kept _ _ _ _ _ _ _ L I3 E3 H))].
Qed.
Lemma move_native_same_do p ms s src dst n l l' : move_native p ms s src dst n l = Ok l' -> forall k, same_do (l k) (l' k).
Proof. exact (move_native_same p ms s src dst n l l'). Qed.
Lemma transfer_kept e p cpi ms src mnt dst auth signers amount dec expf l l' :
  Inv e l -> lawful e e -> Esc l -> token_program p ->
  tok_transfer_checked e p cpi ms src mnt dst auth signers amount dec expf l = Ok l' -> all_kept l l'.
Proof.
  intros I L E T H. destruct (pk_dec src dst) as [<-|Hne].
  - apply transfer_checked_inv in H.
    destruct H as (s & m & fee & s1 & _ & _ & _ & _ & _ & _ & _ & _ & _ & _ & _ & _ & [[_ ->]|(Q & _)]); [apply all_kept_refl|contradiction].
  - destruct (transfer_mid _ _ _ _ _ _ _ _ _ _ _ _ _ _ I T Hne H)
      as (s & d & m & fee & s1 & dx & l3 & Ds & Dd & _ & _ & _ & _ & _ & _ & _ & _ & _ & _ & _ & _ & Mv & I3 & TS & ms' & n & Hk).
    apply (all_kept_trans _ l3); [|exact (hook_kept _ _ _ _ _ _ _ L I3 (tame_esc _ _ TS E) Hk)].
    split; [|exact (tame_types _ _ TS)]. apply mints_kept_same. intros k m0 O D.
    destruct (move_native_same_do _ _ _ _ _ _ _ _ Mv k) as [A B]. unfold transfer_ledger in A, B. cbv zeta in A, B.
    rewrite !upd_other in A, B by congruence. split; congruence.
Qed.
Lemma wrap_kept e c amount l l' :
  Inv e l -> lawful e e -> no_tw_signer (c_infos c) -> c_prog c = tw_id -> Esc l -> process_wrap e c amount l = Ok l' -> all_kept l l'.
Proof.
  intros I L NS Hc E H. destruct (map i_key (c_infos c)) as [|r [|w [|a [|up [|wp [|s [|u [|esc [|ta rest]]]]]]]]] eqn:Ek;
    try (unfold process_wrap in H; inv_ok; destruct (c_infos c) as [|? [|? [|? [|? [|? [|? [|? [|? [|? ?]]]]]]]]]; discriminate).
  destruct (process_wrap_inv _ _ _ _ _ _ _ _ _ _ _ _ _ _ _ Ek Hc H)
    as (Hn0 & Tu & Tw & Hw & Ha & He & et & um & ms & extra & l1 & msm & Uet & Wet & Uum & Hfee & Hms & Cp & Ht & _ & _ & Hm).
  apply (all_kept_trans _ l1); [exact (transfer_kept _ _ _ _ _ _ _ _ _ _ _ _ _ _ I L E Tu Ht)|].
  split; [exact (changes_mints _ _ _ _ (changes_mint_to _ _ _ _ _ _ _ _ _ Hm))|]. apply tame_types.
  apply (mint_to_tame _ _ _ _ _ _ _ _) in Hm; [exact Hm|]. rewrite Hw. apply is_tw_pda_wrapped.
Qed.
Lemma unwrap_kept e c amount l l' :
  Inv e l -> lawful e e -> no_tw_signer (c_infos c) -> c_prog c = tw_id -> Esc l -> process_unwrap e c amount l = Ok l' -> all_kept l l'.
Proof.
  intros I L NS Hc E H. destruct (map i_key (c_infos c)) as [|esc [|r [|a [|u [|wp [|up [|s [|w [|ta rest]]]]]]]]] eqn:Ek;
    try (unfold process_unwrap in H; inv_ok; destruct (c_infos c) as [|? [|? [|? [|? [|? [|? [|? [|? [|? ?]]]]]]]]]; discriminate).
  destruct (process_unwrap_inv _ _ _ _ _ _ _ _ _ _ _ _ _ _ _ Ek Hc H)
    as (Hn0 & Tu & Tw & Hw & Ha & He & msk & msb & l1 & um & extra & ms & _ & Cp & Hb & _ & _ & _ & Ht).
  pose proof (plain_unsigned _ _ NS Cp) as NM.
  pose proof (changes_burn _ _ _ _ _ _ _ _ _ _ Hb) as C1. pose proof (conserves_burn _ _ _ _ _ _ _ _ _ _ Hb) as K1.
  pose proof (changes_inv _ _ _ _ _ I Tw NM C1 K1) as I1.
  apply (all_kept_trans _ l1); [exact (changes_kept _ _ _ _ _ I Tw NM C1 E)|].
  exact (transfer_kept _ _ _ _ _ _ _ _ _ _ _ _ _ _ I1 L (changes_esc _ _ _ _ _ I Tw NM C1 E) Tu Ht).
Qed.
Lemma create_kept e c idem l l' : c_prog c = tw_id -> process_create_mint default_customizer e c idem l = Ok l' -> all_kept l l'.
Proof.
  intros Hc H. destruct (map i_key (c_infos c)) as [|w [|b [|u [|x [|p rest]]]]] eqn:Ek;
    try (unfold process_create_mint in H; destruct (c_infos c) as [|? [|? [|? [|? [|? ?]]]]]; discriminate).
  destruct (process_create_inv _ _ _ _ _ _ _ _ _ _ _ Ek Hc H) as (Hw & Hb & _ & [(_ & _ & _ & _ & ->)|X]); [apply all_kept_refl|].
  destruct X as (_ & _ & Ow & Ob & T & _ & _ & _ & _ & mu & _ & Lw & Lb & Lo). split.
  - apply mints_kept_same. intros k m O D. rewrite Lo; [split; reflexivity| |]; intros ->; [rewrite Ow in O|rewrite Ob in O]; destruct O as [O|O]; discriminate O.
  - apply tame_types. subst w b. intro k. destruct (is_tw_pda k) eqn:P; [right; left; apply tw_pda_not_ata; exact P|left]. rewrite Lo; [split; reflexivity| |].
    + intros ->. rewrite is_tw_pda_wrapped in P. discriminate.
    + intros ->. rewrite is_tw_pda_backpointer in P. discriminate.
Qed.
Lemma close_kept e c l l' : c_prog c = tw_id -> process_close_stuck_escrow e c l = Ok l' -> all_kept l l'.
Proof.
  intros Hc H. destruct (map i_key (c_infos c)) as [|esc [|d [|u [|w [|a [|p rest]]]]]] eqn:Ek;
    try (unfold process_close_stuck_escrow in H; destruct (c_infos c) as [|? [|? [|? [|? [|? [|? ?]]]]]]; discriminate).
  destruct (process_close_inv _ _ _ _ _ _ _ _ _ _ _ Ek Hc H) as (Oe & _ & _ & _ & He & et & m & msc & Ue & _ & Za & _ & _ & _ & _ & _ & _ & Ht).
  unfold pod_unpack_tok in Ue. destruct (a_data (l esc)) as [|  | |t| |] eqn:De; try discriminate; [destruct (_ && _); discriminate|].
  destruct (tok_close_tok_inv _ _ _ _ _ _ _ _ _ _ De Ht) as (Ned & _ & _ & _ & _ & _ & _ & Le & Ld & Lo). split.
  - exact (changes_mints _ _ _ _ (changes_tok_close _ _ _ _ _ _ _ _ _ Ht)).
  - intros w' u' b t' P D'. exists t'. split; [|reflexivity]. destruct (pk_dec (ata_key w' t22_id u' b) esc) as [Q|N1].
    + rewrite Q, Le in D'. discriminate.
    + destruct (pk_dec (ata_key w' t22_id u' b) d) as [Q2|N2]; [rewrite Q2, Ld in D'|rewrite Lo in D' by assumption]; rewrite ?Q2; exact D'.
Qed.
Lemma sync_t22_kept e c l l' : c_prog c = tw_id -> process_sync_metadata_to_token_2022 e c l = Ok l' -> all_kept l l'.
Proof.
  intros Hc H. destruct (map i_key (c_infos c)) as [|w [|a [|u [|p rest]]]] eqn:Ek;
    try (unfold process_sync_metadata_to_token_2022 in H; destruct (c_infos c) as [|? [|? [|? [|? ?]]]]; discriminate).
  destruct (process_sync_t22_inv _ _ _ _ _ _ _ _ _ Ek Hc H) as (_ & Ow & Hw & Ha & um & m & _ & Um & X). split.
  - assert (Q : (forall k, k <> w -> l' k = l k) /\ a_owner (l' w) = t22_id /\ exists m', a_data (l' w) = DMint m' /\ m_init m' = m_init m /\ m_decimals m' = m_decimals m /\
      required_init_account_exts (m_exts m') = required_init_account_exts (m_exts m) /\ find_map cla (m_exts m') = find_map cla (m_exts m)).
    { destruct X as [(t & _ & Lo & X)|(_ & _ & _ & Lo & X)].
      - split; [exact Lo|]. destruct X as (len & _ & X). rewrite X. cbn [a_owner with_data a_data]. split; [exact Ow|]. eexists. split; [reflexivity|].
        split; [reflexivity|]. split; [reflexivity|]. cbn [m_exts set_mexts]. apply md_required.
      - cbv zeta in X. split; [exact Lo|]. rewrite X. cbn [a_owner with_data a_data]. split; [exact Ow|]. eexists. split; [reflexivity|].
        split; [reflexivity|]. split; [reflexivity|]. cbn [m_exts set_mexts]. apply md_append_required. }
    destruct Q as (Lo & Ow' & m' & D' & Im & Dc & R1 & R2). intros k q m0 Tq (O & D & I) N. destruct (pk_dec k w) as [->|Nk].
    + assert (m0 = m). { unfold pod_unpack_mint in Um. rewrite D in Um. destruct (m_init m0); congruence. } subst m0.
      exists m'. split; [split; [congruence|split; [exact D'|congruence]]|]. split; [rewrite close_auth_def, R2, <- close_auth_def; exact N|split; [exact R1|exact Dc]].
    + exists m0. split; [|split; [exact N|split; reflexivity]]. rewrite <- (Lo k Nk) in O, D. split; [exact O|split; [exact D|exact I]].
  - apply tame_types, away_tame. intros k A. assert (N : k <> w) by (apply ata_neq_tw; [exact A|rewrite Hw; apply is_tw_pda_wrapped]).
    destruct X as [(t & _ & Lo & _)|(_ & _ & _ & Lo & _)]; rewrite (Lo k N); split; reflexivity.
Qed.

Lemma sync_spl_kept e c l l' : c_prog c = tw_id -> process_sync_metadata_to_spl_token e c l = Ok l' -> all_kept l l'.
Proof.
  intros Hc H. destruct (map i_key (c_infos c)) as [|md [|a [|w [|u [|x [|sy [|rn rest]]]]]]] eqn:Ek;
    try (unfold process_sync_metadata_to_spl_token in H; destruct (c_infos c) as [|? [|? [|? [|? [|? [|? [|? ?]]]]]]]; discriminate).
  destruct (process_sync_spl_inv _ _ _ _ _ _ _ _ _ _ _ _ Ek Hc H) as (_ & _ & _ & Ha & Hmd & _ & um & d & _ & _ & X). split.
  - apply mints_kept_same. intros k m O D.
    destruct X as [(_ & Om & _ & Oa & _ & _ & m1 & _ & _ & ->)|(_ & Om & old & _ & _ & _ & _ & ->)]; cbv zeta.
    + assert (N1 : k <> md) by (intros ->; rewrite Om in O; destruct O as [O|O]; discriminate O). assert (N2 : k <> a) by (intros ->; rewrite Oa in O; destruct O as [O|O]; discriminate O).
      rewrite !upd_other by congruence. split; reflexivity.
    + assert (N1 : k <> md) by (intros ->; rewrite Om in O; destruct O as [O|O]; discriminate O). rewrite !upd_other by congruence. split; reflexivity.
  - apply tame_types, away_tame. intros k A.
    assert (N1 : k <> md) by (intros ->; rewrite Hmd, metaplex_not_ata in A; discriminate).
    assert (N2 : k <> a) by (apply ata_neq_tw; [exact A|rewrite Ha; apply is_tw_pda_authority]).
    destruct X as [(_ & _ & _ & _ & _ & _ & m & _ & _ & ->)|(_ & _ & old & _ & _ & _ & _ & ->)]; cbv zeta; rewrite !upd_other by congruence; split; reflexivity.
Qed.
Lemma set_pointer_kept e c v l l' : c_prog c = tw_id -> process_set_canonical_pointer e c v l = Ok l' -> all_kept l l'.
Proof.
  intros Hc H. destruct (map i_key (c_infos c)) as [|a [|p [|u [|x rest]]]] eqn:Ek;
    try (unfold process_set_canonical_pointer in H; destruct (c_infos c) as [|? [|? [|? [|? ?]]]]; discriminate).
  destruct (process_set_pointer_inv _ _ _ _ _ _ _ _ _ _ Ek Hc H) as (Sa & Tu & Hp & _ & (m & Um & Am) & Op & Lp & Lo). split.
  - apply mints_kept_same. intros k m0 O D. rewrite Lo; [split; reflexivity|]. intros ->. destruct Op as [(_ & Op & _)|(_ & Op)]; rewrite Op in O; destruct O as [O|O]; discriminate O.
  - apply tame_types, away_tame. intros k A. assert (N : k <> p) by (apply ata_neq_tw; [exact A|rewrite Hp; apply is_tw_pda_canonical]).
    rewrite (Lo k N). split; reflexivity.
Qed.

(** ** Histories *)
(** Every step, except the creation of an associated account under Token-2022. *)
Lemma step_kept e0 a l l' : Inv e0 l -> Esc l -> step e0 a l l' ->
  all_kept l l' \/ exists e wallet mnt, ata_create e t22_id wallet mnt l = Ok l'.
Proof.
  intros I E S. destruct S as [e accounts input l l' L NS R|e p cpi accounts ix l l' L T NS X|e p wallet mnt l l' L T X|l l' W].
  - left. pose proof L as [C _]. pose proof (Inv_curve _ _ _ C I) as Ie. pose proof (lawful_self _ _ L) as Le.
    unfold runs, process_instruction in R. apply bind_ok in R. destruct R as (i & Ei & H).
    assert (CP : c_prog (mkCtx tw_id accounts) = tw_id) by reflexivity.
    assert (NS' : no_tw_signer (c_infos (mkCtx tw_id accounts))) by exact NS.
    destruct i; cbn [process_instr map_instr] in H.
    + exact (create_kept _ _ _ _ _ CP H).
    + exact (wrap_kept _ _ _ _ _ Ie Le NS' CP E H).
    + exact (unwrap_kept _ _ _ _ _ Ie Le NS' CP E H).
    + exact (close_kept _ _ _ _ CP H).
    + exact (sync_t22_kept _ _ _ _ CP H).
    + exact (sync_spl_kept _ _ _ _ CP H).
    + exact (set_pointer_kept _ _ _ _ _ CP H).
  - left. exact (tok_exec_kept _ _ _ _ _ _ _ _ L I E T NS X).
  - destruct T as [-> | ->]; [left; exact (ata_other_kept _ _ _ _ _ _ spl_not_t22 X)|right; eauto].
  - left. exact (world_kept _ _ W).
Qed.
(** The escrows of [u] (under Token-2022) fit their mint, which cannot be closed. *)
Definition fits (u : pubkey) (l : ledger) : Prop :=
  forall w b t, is_tw_pda w = true -> a_data (l (ata_key w t22_id u b)) = DTok t ->
    exists m, mint_account l u t22_id m /\ ext_close_authority m = None /\
      map acct_ext_type_of (t_exts t) = map acct_ext_type_of (init_account_exts t22_id m true).
Lemma init_types m m' p : required_init_account_exts (m_exts m') = required_init_account_exts (m_exts m) -> init_account_exts p m' true = init_account_exts p m true.
Proof. intro E. unfold init_account_exts. rewrite E. reflexivity. Qed.
Lemma kept_fits u l l' : all_kept l l' -> fits u l -> fits u l'.
Proof.
  intros [M T] F w b t' P D'. destruct (T w u b t' P D') as (t & D & E). destruct (F w b t P D) as (m & H & C & Q).
  destruct (M u t22_id m (or_intror eq_refl) H C) as (m' & H' & C' & R & _). exists m'. split; [exact H'|]. split; [exact C'|]. rewrite (init_types m m' _ R). congruence.
Qed.
Lemma ata_fits e wallet mnt u l l' : uncloseable u l -> ata_create e t22_id wallet mnt l = Ok l' -> fits u l -> fits u l'.
Proof.
  intros U H F. pose proof (ata_mints _ _ _ _ _ _ H) as M. pose proof (ata_create_inv _ _ _ _ _ _ H) as Q. cbv zeta in Q.
  destruct Q as (m0 & l1 & O & Om & Um & _). destruct (ata_created _ _ _ _ _ _ H) as (Lo & m & t & Um' & _ & D & A1 & _ & _ & _ & A5 & _).
  assert (m0 = m) by congruence. subst m0.
  intros w b t' P D'. destruct (pk_dec (ata_key w t22_id u b) (ata_of e wallet mnt t22_id)) as [Q|Q].
  - destruct (ata_key_of e wallet mnt t22_id) as [b' Q']. pose proof Q as Q2. rewrite Q' in Q2. unfold ata_key in Q2. assert (Eu : mnt = u) by (clear -Q2; inversion Q2; reflexivity). clear Q2. subst u.
    rewrite Q in D'. assert (t' = t) by congruence. subst t'. apply unpack_mint_inv in Um. destruct Um as (Dm & Im & _).
    assert (MA : mint_account l mnt t22_id m) by (split; [exact Om|split; assumption]). pose proof (U m MA) as C.
    destruct (M mnt t22_id m (or_intror eq_refl) MA C) as (m' & H' & C' & R & _). exists m'. split; [exact H'|]. split; [exact C'|]. rewrite (init_types m m' _ R), A5. reflexivity.
  - rewrite (Lo _ Q) in D'. destruct (F w b t' P D') as (m1 & H1 & C1 & E1). destruct (M u t22_id m1 (or_intror eq_refl) H1 C1) as (m' & H' & C' & R & _).
    exists m'. split; [exact H'|]. split; [exact C'|]. rewrite (init_types m1 m' _ R). exact E1.
Qed.
Lemma history_fits e0 past l u : history e0 past l -> ever (uncloseable u) past l -> fits u l.
Proof.
  induction 1 as [l G|past l a l' H IH S]; intro EV.
  - destruct G as (_ & _ & _ & _ & PD). intros w b t P D. destruct (PD _ (or_intror (is_ata_key w t22_id u b (or_intror eq_refl)))) as [B _]. rewrite B in D. discriminate.
  - assert (F : fits u l) by (apply IH; intros x Hx; apply EV; right; exact Hx).
    assert (U : uncloseable u l) by (apply EV; right; left; reflexivity).
    destruct (step_kept _ _ _ _ (history_inv _ _ _ H) (history_esc _ _ _ H) S) as [K|(e & wallet & mnt & X)]; [exact (kept_fits _ _ _ K F)|].
    exact (ata_fits _ _ _ _ _ _ U X F).
Qed.
