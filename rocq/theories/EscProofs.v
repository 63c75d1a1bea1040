(** * EscProofs.v — associated token accounts of token-wrap's authorities (the escrows) are genuine in
    every reachable state: blank, or exactly as the associated-token program created them, apart from
    balance, withheld fees and freezing. *)
From Verif Require Import Base Codec State Pda TokenProg Cpi Ata Meta Processor Tac PdaProofs TokProofs FrameProofs ProcProofs
  Spec SpecLemmas WrapProofs CreateProofs MapProofs SyncProofs SyncProofs2 CloseProofs InvTok InvCons HistorySpec InvState InvTw InvHist.

(** A token account of [mnt] under [p], owned by [wallet], with nobody else in control and only the
    extensions it was created with. *)
Definition genuine (wallet mnt p : pubkey) (t : tokacc) : Prop :=
  t_mint t = mnt /\ t_owner t = wallet /\ t_delegate t = None /\ t_close t = None /\
  exists m, map acct_ext_type_of (t_exts t) = map acct_ext_type_of (init_account_exts p m true).
Definition settled (wallet mnt p : pubkey) (a : account) : Prop :=
  blank a \/ (a_owner a = p /\ exists t, a_data a = DTok t /\ genuine wallet mnt p t).
Definition ata_key (wallet p mnt : pubkey) (b : N) : pubkey := PkDerived [inr wallet; inr p; inr mnt; inl b] ata_id.
Definition Esc (l : ledger) : Prop :=
  forall wallet mnt p b, is_tw_pda wallet = true -> token_program p -> settled wallet mnt p (l (ata_key wallet p mnt b)).

Lemma ata_key_of e wallet mnt p : exists b, ata_of e wallet mnt p = ata_key wallet p mnt b.
Proof. unfold ata_of, pda, ata_key, ata_seeds. eexists. cbn [app]. reflexivity. Qed.
Lemma is_ata_key wallet p mnt b : token_program p -> is_ata (ata_key wallet p mnt b) = true.
Proof. intros [->| ->]; reflexivity. Qed.
Lemma tw_pda_not_ata k : is_tw_pda k = true -> is_ata k = false.
Proof.
  destruct k as [|s p]; [discriminate|]. cbn. intro H. destruct s as [|[|] [|[|] [|[|] [|[|] [|]]]]]; try reflexivity.
  apply pk_eqb_eq in H. subst p. reflexivity.
Qed.
Lemma metaplex_not_ata e m : is_ata (metaplex_of e m) = false.
Proof. unfold metaplex_of, pda. cbn. reflexivity. Qed.

Lemma settled_same w m p a a' : same_do a a' -> settled w m p a -> settled w m p a'.
Proof.
  intros [D O] [[B1 B2]|(O1 & t & D1 & G)]; [left; split; congruence|right]. split; [congruence|]. exists t. split; [congruence|exact G].
Qed.
(** Token account updates that keep who controls the account. *)
Definition tame (t t' : tokacc) : Prop :=
  t_mint t' = t_mint t /\ t_owner t' = t_owner t /\ t_close t' = t_close t /\ delegate_kept t t' /\
  map acct_ext_type_of (t_exts t') = map acct_ext_type_of (t_exts t).
Lemma tame_genuine w m p t t' : tame t t' -> genuine w m p t -> genuine w m p t'.
Proof.
  intros (A & B & D & E & F) (G1 & G2 & G3 & G4 & mm & G5). split; [congruence|]. split; [congruence|]. split; [destruct E; congruence|].
  split; [congruence|]. exists mm. congruence.
Qed.
Definition tame_step (l l' : ledger) : Prop :=
  forall k, same_do (l k) (l' k) \/ is_ata k = false \/
    (a_owner (l' k) = a_owner (l k) /\ exists t t', a_data (l k) = DTok t /\ a_data (l' k) = DTok t' /\ tame t t').
Lemma tame_esc l l' : tame_step l l' -> Esc l -> Esc l'.
Proof.
  intros H E w m p b P T. specialize (E w m p b P T). destruct (H (ata_key w p m b)) as [S|[N|(O & t & t' & D & D' & Ta)]].
  - exact (settled_same _ _ _ _ _ S E).
  - rewrite (is_ata_key _ _ _ _ T) in N. discriminate.
  - destruct E as [[B _]|(O1 & t0 & D1 & G)]; [congruence|]. right. split; [congruence|]. exists t'. split; [exact D'|].
    assert (t0 = t) by congruence. subst t0. exact (tame_genuine _ _ _ _ _ Ta G).
Qed.

(** ** Token programs without token-wrap's signature *)
Lemma changes_esc e0 p ms l l' : Inv e0 l -> token_program p -> no_tw_signer ms -> changes p ms l l' -> Esc l -> Esc l'.
Proof.
  intros I T N C E w m q b P Tq. specialize (E w m q b P Tq). set (k := ata_key w q m b) in *.
  destruct (C k) as [S|(O & _ & X)]; [exact (settled_same _ _ _ _ _ S E)|].
  destruct E as [[_ B]|(O1 & t & D & G)]; [exfalso; apply (token_not_system _ T); congruence|].
  assert (Eq : q = p) by congruence. rewrite Eq in *. clear Eq. rewrite D in X. pose proof G as (G1 & G2 & G3 & G4 & _).
  assert (NS : ~ signed_for p l (is_sig ms) (t_owner t)) by (rewrite G2; exact (unsigned_pda e0 l p ms _ I N P)).
  assert (NOWN : ~ (t_owner t = system_id \/ t_owner t = incinerator_id)) by (rewrite G2; intros [Q|Q]; rewrite Q in P; discriminate).
  remember (a_data (l' k)) as d' eqn:Ed. remember (a_owner (l' k)) as o' eqn:Eo.
  destruct X as [ | | | | | | | | | | | | |t0 t' E1 E2 E3 E4 _ X|t0 E1 E2 E3 _]; try discriminate; try match goal with H : unpack_uninit_mint _ = Ok _ |- _ => discriminate H end.
  - assert (t0 = t) by congruence. subst t0. right. split; [symmetry; exact Eo|]. exists t'. split; [symmetry; exact Ed|].
    destruct X as [? ? ? ? ?|who ? ? ? ? ? ?|? ? ? ? ?|? ? ?|? ? ? ? ?|who Sg Q ? ? ? ?]; try (exfalso; contradiction).
    + apply (tame_genuine _ _ _ t); [|exact G]. repeat split; assumption.
    + apply (tame_genuine _ _ _ t); [|exact G]. repeat split; assumption.
    + exfalso. destruct Q as [Q|[_ ->]]; [congruence|contradiction].
  - exfalso. assert (t0 = t) by congruence. subst t0. destruct E3 as [E3|E3]; [contradiction|]. rewrite G4 in E3. contradiction.
Qed.

(** ** Everything else *)
Lemma world_esc l l' : world_change l l' -> Esc l -> Esc l'.
Proof.
  intros W E w m p b P T. apply (settled_same _ _ _ (l (ata_key w p m b))); [|exact (E w m p b P T)].
  destruct (W (ata_key w p m b)) as (_ & _ & _ & _ & A). destruct (A (is_ata_key _ _ _ _ T)) as [D O]. split; assumption.
Qed.
Lemma ata_created e p wallet mnt l l' :
  ata_create e p wallet mnt l = Ok l' ->
  (forall k, k <> ata_of e wallet mnt p -> l' k = l k) /\
  exists m t, unpack_mint p (a_data (l mnt)) = Ok m /\ a_owner (l' (ata_of e wallet mnt p)) = p /\ a_data (l' (ata_of e wallet mnt p)) = DTok t /\
    t_mint t = mnt /\ t_owner t = wallet /\ t_delegate t = None /\ t_close t = None /\ t_exts t = init_account_exts p m true /\
    t_native t = (if is_native_mint p mnt then Some (e_rent e (tok_space (init_account_exts p m true))) else None) /\
    t_amount t = (if is_native_mint p mnt then a_lamports (l (ata_of e wallet mnt p)) - e_rent e (tok_space (init_account_exts p m true)) else 0) /\
    t_state t = ext_default_state m /\ t_delegated t = 0 /\
    e_rent e (tok_space (init_account_exts p m true)) <= a_lamports (l (ata_of e wallet mnt p)) /\
    a_lamports (l' (ata_of e wallet mnt p)) = a_lamports (l (ata_of e wallet mnt p)).
Proof.
  intro H. apply ata_create_inv in H. cbv zeta in H. destruct H as (m & l1 & O & Om & U & E & H).
  assert (Nk : ata_of e wallet mnt p <> mnt) by apply ata_neq_mint.
  remember (ata_of e wallet mnt p) as k eqn:Ek. split.
  - intros k' Hk. rewrite (init_account_elsewhere _ _ _ _ _ _ _ _ _ _ H Hk), E. apply upd_other. congruence.
  - unfold tok_init_account in H. assert (Lm : l1 mnt = l mnt) by (rewrite E; apply upd_other; exact Nk).
    rewrite Lm, U in H. cbn [bind] in H. apply bind_ok in H. destruct H as ([] & _ & H). cbv zeta in H.
    apply bind_ok in H. destruct H as ([] & _ & H). apply bind_ok in H. destruct H as ([] & R & H).
    apply guard_ok in R. apply N.leb_le in R. apply set_data_inv in H. destruct H as (_ & O1 & H).
    assert (La : a_lamports (l1 k) = a_lamports (l k)) by (rewrite E, upd_same; reflexivity).
    rewrite La in *. exists m. eexists. split; [exact U|]. rewrite H, upd_same. cbn [a_owner with_data a_data a_lamports].
    split; [exact O1|]. split; [reflexivity|]. cbn [t_mint t_owner t_delegate t_close t_exts t_native t_amount t_state t_delegated]. auto 12.
Qed.
Lemma ata_esc e p wallet mnt l l' : token_program p -> ata_create e p wallet mnt l = Ok l' -> Esc l -> Esc l'.
Proof.
  intros T H E w m q b P Tq. destruct (ata_created _ _ _ _ _ _ H) as (Lo & m' & t & U & O & D & A1 & A2 & A3 & A4 & A5 & _).
  destruct (pk_dec (ata_key w q m b) (ata_of e wallet mnt p)) as [Q|Q]; [|rewrite (Lo _ Q); exact (E w m q b P Tq)].
  rewrite Q. destruct (ata_key_of e wallet mnt p) as [b' Q']. rewrite Q' in Q. unfold ata_key in Q. inversion Q; subst w q m.
  right. split; [exact O|]. exists t. split; [exact D|]. split; [exact A1|]. split; [exact A2|]. split; [exact A3|]. split; [exact A4|].
  exists m'. rewrite A5. reflexivity.
Qed.
Lemma foreign_esc e0 l l' : Inv e0 l -> foreign_steps l l' -> Esc l -> Esc l'.
Proof.
  intros I F. induction F as [l|e cpi ms ix l l1 l2 N X F IH|e wallet mnt l l1 l2 X F IH|l l1 l2 W F IH]; intro E.
  - exact E.
  - apply tok_exec_step in X. destruct X as (l3 & C & K & H). assert (T : token_program spl_token_id) by (left; reflexivity).
    assert (l1 = l3).
    { destruct H as [H|(m & mnt & n & U & H)]; [exact H|]. unfold run_hook in H. destruct (ext_hook m) as [q|] eqn:Q; [|congruence].
      pose proof (ext_hook_t22 _ _ _ _ T U Q). discriminate. }
    subst l3. apply IH; [exact (changes_inv _ _ _ _ _ I T N C K)|]. exact (changes_esc _ _ _ _ _ I T N C E).
  - assert (T : token_program spl_token_id) by (left; reflexivity). destruct (ata_good _ _ _ _ _ _ _ I T X) as (I1 & _).
    apply IH; [exact I1|]. exact (ata_esc _ _ _ _ _ _ T X E).
  - destruct (world_good _ _ _ I W) as (I1 & _). apply IH; [exact I1|exact (world_esc _ _ W E)].
Qed.
Lemma hook_esc e0 e m ms n l l' : lawful e0 e -> Inv e0 l -> run_hook e m ms n l = Ok l' -> Esc l -> Esc l'.
Proof.
  intros [_ L] I H. unfold run_hook in H. destruct (ext_hook m) as [p|]; [|inversion H; subst; intro E; exact E].
  destruct (e_hook e p ms n l) as [x|] eqn:E; [|discriminate]. cbn in H. destruct (balanced _ _ _); [|discriminate]. cbn in H. inversion H; subst.
  apply (foreign_esc e0); [exact I|]. exact (L _ _ _ _ _ E).
Qed.
Lemma tok_exec_esc e0 e p cpi ms ix l l' :
  lawful e0 e -> Inv e0 l -> token_program p -> no_tw_signer ms -> tok_exec e p cpi ms ix l = Ok l' -> Esc l -> Esc l'.
Proof.
  intros L I T N X E. apply tok_exec_step in X. destruct X as (l3 & C & K & H).
  pose proof (changes_inv _ _ _ _ _ I T N C K) as I3. pose proof (changes_esc _ _ _ _ _ I T N C E) as E3.
  destruct H as [->|(m & mnt & n & _ & H)]; [exact E3|exact (hook_esc _ _ _ _ _ _ _ L I3 H E3)].
Qed.

(** ** Token-wrap's instructions *)
Lemma mint_to_tame p ms w r a n l l' : is_tw_pda w = true -> tok_mint_to p ms w r a [] n l = Ok l' -> tame_step l l'.
Proof.
  intros P H. apply mint_to_inv in H. destruct H as (d & m & Ud & _ & _ & _ & _ & _ & _ & _ & _ & Or & Ow & Hne & _ & _ & Hl).
  apply unpack_tok_inv in Ud. destruct Ud as (Dd & _). intro k.
  destruct (pk_dec k w) as [->|N1]; [right; left; apply tw_pda_not_ata; exact P|].
  destruct (pk_dec k r) as [->|N2].
  - right; right. rewrite Hl, upd_other, upd_same by exact Hne. cbn. split; [reflexivity|]. exists d. eexists. split; [exact Dd|]. split; [reflexivity|].
    repeat split; try reflexivity. left; reflexivity.
  - left. rewrite Hl, !upd_other by congruence. split; reflexivity.
Qed.
Lemma transfer_mid e p cpi ms src mnt dst auth signers amount dec expf l l' :
  Inv e l -> token_program p -> src <> dst ->
  tok_transfer_checked e p cpi ms src mnt dst auth signers amount dec expf l = Ok l' ->
  exists s d m fee s1 dx l3,
    a_data (l src) = DTok s /\ a_data (l dst) = DTok d /\ t_mint s = mnt /\ t_mint d = mnt /\ a_owner (l src) = p /\ a_owner (l dst) = p /\
    amount <= t_amount s /\ fee <= amount /\ unpack_mint p (a_data (l mnt)) = Ok m /\ tame s s1 /\ t_native s1 = t_native s /\ t_amount s1 = t_amount s /\
    tame d (set_texts dx (set_amount (t_amount d + (amount - fee)) d)) /\ transfer_fee_of e m amount = Ok fee /\
    move_native p ms s src dst amount (transfer_ledger l src dst s1 d dx amount fee) = Ok l3 /\
    Inv e l3 /\ tame_step l l3 /\ (exists ms' n, run_hook e m ms' n l3 = Ok l').
Proof.
  intros I T Hne H. apply transfer_checked_inv in H.
  destruct H as (s & m & fee & s1 & Us & Fs & As & Ms & Um & _ & Hfee & _ & _ & Au & Os & Od & [[Q _]|(_ & d & dx & l3 & Ud & Fd & Md & _ & Hf & Hb & Hx & W1 & W2 & Mv & Hk)]).
  { contradiction. }
  apply unpack_tok_inv in Us. destruct Us as (Ds & _). apply unpack_tok_inv in Ud. destruct Ud as (Dd & _).
  pose proof (authorize_debit_fields _ _ _ _ _ _ _ _ _ _ _ Au) as (G1 & G2 & G3 & G4 & G5 & G6 & G7).
  assert (DK : delegate_kept s s1).
  { apply authorize_debit_inv in Au. destruct Au as [_ [[_ ->]|[[_ [_ ->]]|[_ [-> _]]]]]; try (left; reflexivity).
    destruct (pk_eqb src dst); [left; reflexivity|]. unfold delegate_kept. cbn [t_delegate set_delegate]. destruct (t_delegated s - amount =? 0); [right|left]; reflexivity. }
  assert (S3 : forall k, same_do (transfer_ledger l src dst s1 d dx amount fee k) (l3 k)) by exact (move_native_same _ _ _ _ _ _ _ _ Mv).
  pose proof (conserves_transfer_ledger p ms l src dst s s1 d dx amount fee l3 Hne Ds Dd (eq_trans Md (eq_sym Ms)) G1 G3 G7 As Hf Hx W1 W2 Os Od S3) as K.
  assert (L3s : a_data (l3 src) = DTok (set_amount (t_amount s1 - amount) s1) /\ a_owner (l3 src) = p).
  { destruct (S3 src) as [-> ->]. unfold transfer_ledger. cbv zeta. rewrite upd_other by congruence. rewrite upd_same. cbn. auto. }
  assert (L3d : a_data (l3 dst) = DTok (set_texts dx (set_amount (t_amount d + (amount - fee)) d)) /\ a_owner (l3 dst) = p).
  { destruct (S3 dst) as [-> ->]. unfold transfer_ledger. cbv zeta. rewrite upd_same. rewrite (upd_other l src _ dst) by exact Hne. cbn. auto. }
  assert (L3o : forall k, k <> src -> k <> dst -> same_do (l k) (l3 k)).
  { intros k N1 N2. destruct (S3 k) as [A B]. unfold transfer_ledger in A, B. cbv zeta in A, B. rewrite !upd_other in A, B by congruence. split; congruence. }
  destruct L3s as [L3s L3so]. destruct L3d as [L3d L3do].
  assert (Ts : token_program (a_owner (l src))) by (rewrite Os; exact T).
  assert (Td : token_program (a_owner (l dst))) by (rewrite Od; exact T).
  assert (Ps : is_tw_pda src = false) by exact (pda_no_tok _ _ _ _ I Ds).
  assert (Pd : is_tw_pda dst = false) by exact (pda_no_tok _ _ _ _ I Dd).
  assert (SD : forall k, is_tw_pda k = true -> same_do (l k) (l3 k)) by (intros k P; apply L3o; congruence).
  assert (TS : tame s s1) by (split; [congruence|split; [congruence|split; [congruence|split; [exact DK|congruence]]]]).
  assert (TD : tame d (set_texts dx (set_amount (t_amount d + (amount - fee)) d))).
  { split; [reflexivity|]. split; [reflexivity|]. split; [reflexivity|]. split; [left; reflexivity|].
    cbn. destruct (fee =? 0); [congruence|]. eapply add_withheld_types; exact Hx. }
  assert (I3 : Inv e l3).
  { apply (inv_from e l).
    - exact I.
    - intro k. destruct (pk_dec k src) as [->|N1]; [right|destruct (pk_dec k dst) as [->|N2]; [right|left; apply L3o; assumption]].
      + split; [|split; [exact (tok_not_sol _ _ _ _ I Ds)|split]].
        * apply (tok_acct_ok e l src s (set_amount (t_amount s1 - amount) s1) _ I Ts Ds); try (cbn; congruence).
          exact DK.
        * congruence.
        * intros t Ht. split; [congruence|]. exists s. split; [exact Ds|]. rewrite L3s in Ht. inversion Ht; subst t. cbn. congruence.
      + split; [|split; [exact (tok_not_sol _ _ _ _ I Dd)|split]].
        * apply (tok_acct_ok e l dst d (set_texts dx (set_amount (t_amount d + (amount - fee)) d)) _ I Td Dd); try (cbn; congruence); [left; reflexivity|].
          cbn. destruct (fee =? 0); [congruence|]. eapply add_withheld_types; exact Hx.
        * congruence.
        * intros t Ht. split; [congruence|]. exists d. split; [exact Dd|]. rewrite L3d in Ht. inversion Ht; subst t. reflexivity.
    - apply (pair_same e l l3 I). intros k P. destruct (SD k P) as [A B]. unfold blank. rewrite A, B. split; intro X; exact X.
    - intros q v Tq Nq. apply K; auto; [exact (inv_mints_fine _ _ _ I T)|exact (inv_natives_fine _ _ _ I T)|exact (inv_cons _ _ I q v Tq Nq)]. }
  exists s, d, m, fee, s1, dx, l3.
  assert (TT : tame_step l l3 /\ (exists ms' n, run_hook e m ms' n l3 = Ok l')); [split|repeat (split; [assumption|]); exact TT].
  - intro k. destruct (pk_dec k src) as [->|N1]; [right; right|destruct (pk_dec k dst) as [->|N2]; [right; right|left; apply L3o; assumption]].
    + split; [congruence|]. exists s. eexists. split; [exact Ds|]. split; [exact L3s|]. exact TS.
    + split; [congruence|]. exists d. eexists. split; [exact Dd|]. split; [exact L3d|]. exact TD.
  - eexists _, _. exact Hk.
Qed.
Lemma transfer_esc e p cpi ms src mnt dst auth signers amount dec expf l l' :
  Inv e l -> lawful e e -> token_program p ->
  tok_transfer_checked e p cpi ms src mnt dst auth signers amount dec expf l = Ok l' -> Esc l -> Esc l'.
Proof.
  intros I L T H E. destruct (pk_dec src dst) as [<-|Hne].
  - apply transfer_checked_inv in H.
    destruct H as (s & m & fee & s1 & _ & _ & _ & _ & _ & _ & _ & _ & _ & _ & _ & _ & [[_ ->]|(Q & _)]); [exact E|contradiction].
  - destruct (transfer_mid _ _ _ _ _ _ _ _ _ _ _ _ _ _ I T Hne H)
      as (s & d & m & fee & s1 & dx & l3 & _ & _ & _ & _ & _ & _ & _ & _ & _ & _ & _ & _ & _ & _ & _ & I3 & TS & ms' & n & Hk).
    exact (hook_esc _ _ _ _ _ _ _ L I3 Hk (tame_esc _ _ TS E)).
Qed.
Lemma wrap_esc e c amount l l' :
  Inv e l -> lawful e e -> no_tw_signer (c_infos c) -> c_prog c = tw_id -> process_wrap e c amount l = Ok l' -> Esc l -> Esc l'.
Proof.
  intros I L NS Hc H E. destruct (map i_key (c_infos c)) as [|r [|w [|a [|up [|wp [|s [|u [|esc [|ta rest]]]]]]]]] eqn:Ek;
    try (unfold process_wrap in H; inv_ok; destruct (c_infos c) as [|? [|? [|? [|? [|? [|? [|? [|? [|? ?]]]]]]]]]; discriminate).
  destruct (process_wrap_inv _ _ _ _ _ _ _ _ _ _ _ _ _ _ _ Ek Hc H)
    as (Hn0 & Tu & Tw & Hw & Ha & He & et & um & ms & extra & l1 & msm & Uet & Wet & Uum & Hfee & Hms & Cp & Ht & _ & _ & Hm).
  apply (tame_esc l1); [|exact (transfer_esc _ _ _ _ _ _ _ _ _ _ _ _ _ _ I L Tu Ht E)].
  apply (mint_to_tame _ _ _ _ _ _ _ _) in Hm; [exact Hm|]. rewrite Hw. apply is_tw_pda_wrapped.
Qed.
Lemma unwrap_esc e c amount l l' :
  Inv e l -> lawful e e -> no_tw_signer (c_infos c) -> c_prog c = tw_id -> process_unwrap e c amount l = Ok l' -> Esc l -> Esc l'.
Proof.
  intros I L NS Hc H E. destruct (map i_key (c_infos c)) as [|esc [|r [|a [|u [|wp [|up [|s [|w [|ta rest]]]]]]]]] eqn:Ek;
    try (unfold process_unwrap in H; inv_ok; destruct (c_infos c) as [|? [|? [|? [|? [|? [|? [|? [|? [|? ?]]]]]]]]]; discriminate).
  destruct (process_unwrap_inv _ _ _ _ _ _ _ _ _ _ _ _ _ _ _ Ek Hc H)
    as (Hn0 & Tu & Tw & Hw & Ha & He & msk & msb & l1 & um & extra & ms & _ & Cp & Hb & _ & _ & _ & Ht).
  pose proof (plain_unsigned _ _ NS Cp) as NM.
  pose proof (changes_burn _ _ _ _ _ _ _ _ _ _ Hb) as C1. pose proof (conserves_burn _ _ _ _ _ _ _ _ _ _ Hb) as K1.
  pose proof (changes_inv _ _ _ _ _ I Tw NM C1 K1) as I1.
  exact (transfer_esc _ _ _ _ _ _ _ _ _ _ _ _ _ _ I1 L Tu Ht (changes_esc _ _ _ _ _ I Tw NM C1 E)).
Qed.
Lemma create_esc e c idem l l' : c_prog c = tw_id -> process_create_mint default_customizer e c idem l = Ok l' -> Esc l -> Esc l'.
Proof.
  intros Hc H. destruct (map i_key (c_infos c)) as [|w [|b [|u [|x [|p rest]]]]] eqn:Ek;
    try (unfold process_create_mint in H; destruct (c_infos c) as [|? [|? [|? [|? [|? ?]]]]]; discriminate).
  destruct (process_create_inv _ _ _ _ _ _ _ _ _ _ _ Ek Hc H) as (Hw & Hb & _ & [(_ & _ & _ & _ & ->)|X]); [intro E; exact E|].
  destruct X as (_ & _ & Ow & Ob & T & _ & _ & _ & _ & mu & _ & Lw & Lb & Lo). subst w b. apply tame_esc. intro k.
  destruct (is_tw_pda k) eqn:P; [right; left; apply tw_pda_not_ata; exact P|left]. rewrite Lo; [split; reflexivity| |].
  - intros ->. rewrite is_tw_pda_wrapped in P. discriminate.
  - intros ->. rewrite is_tw_pda_backpointer in P. discriminate.
Qed.
Lemma close_esc e c l l' : c_prog c = tw_id -> process_close_stuck_escrow e c l = Ok l' -> Esc l -> Esc l'.
Proof.
  intros Hc H E. destruct (map i_key (c_infos c)) as [|esc [|d [|u [|w [|a [|p rest]]]]]] eqn:Ek;
    try (unfold process_close_stuck_escrow in H; destruct (c_infos c) as [|? [|? [|? [|? [|? [|? ?]]]]]]; discriminate).
  destruct (process_close_inv _ _ _ _ _ _ _ _ _ _ _ Ek Hc H) as (Oe & _ & _ & _ & He & et & m & msc & Ue & _ & Za & _ & _ & _ & _ & _ & _ & Ht).
  unfold pod_unpack_tok in Ue. destruct (a_data (l esc)) as [|  | |t| |] eqn:De; try discriminate; [destruct (_ && _); discriminate|].
  destruct (tok_close_tok_inv _ _ _ _ _ _ _ _ _ _ De Ht) as (Ned & _ & _ & _ & _ & _ & _ & Le & Ld & Lo).
  intros w' m' q b P Tq. destruct (pk_dec (ata_key w' q m' b) esc) as [Q|N1].
  - rewrite Q, Le. left. split; reflexivity.
  - apply (settled_same _ _ _ (l (ata_key w' q m' b))); [|exact (E w' m' q b P Tq)].
    destruct (pk_dec (ata_key w' q m' b) d) as [Q2|N2]; [rewrite Q2, Ld|rewrite Lo by assumption]; split; reflexivity.
Qed.
Lemma away_tame (l l' : ledger) : (forall k, is_ata k = true -> same_do (l k) (l' k)) -> tame_step l l'.
Proof. intros H k. destruct (is_ata k) eqn:A; [left; exact (H k A)|right; left; reflexivity]. Qed.
Lemma ata_neq_tw k k' : is_ata k = true -> is_tw_pda k' = true -> k <> k'.
Proof. intros A P ->. rewrite (tw_pda_not_ata _ P) in A. discriminate. Qed.
Lemma sync_t22_esc e c l l' : c_prog c = tw_id -> process_sync_metadata_to_token_2022 e c l = Ok l' -> Esc l -> Esc l'.
Proof.
  intros Hc H. destruct (map i_key (c_infos c)) as [|w [|a [|u [|p rest]]]] eqn:Ek;
    try (unfold process_sync_metadata_to_token_2022 in H; destruct (c_infos c) as [|? [|? [|? [|? ?]]]]; discriminate).
  destruct (process_sync_t22_inv _ _ _ _ _ _ _ _ _ Ek Hc H) as (_ & Ow & Hw & Ha & um & m & _ & _ & X).
  apply tame_esc, away_tame. intros k A. assert (N : k <> w) by (apply ata_neq_tw; [exact A|rewrite Hw; apply is_tw_pda_wrapped]).
  destruct X as [(t & _ & Lo & _)|(_ & _ & _ & Lo & _)]; rewrite (Lo k N); split; reflexivity.
Qed.
Lemma sync_spl_esc e c l l' : c_prog c = tw_id -> process_sync_metadata_to_spl_token e c l = Ok l' -> Esc l -> Esc l'.
Proof.
  intros Hc H. destruct (map i_key (c_infos c)) as [|md [|a [|w [|u [|x [|sy [|rn rest]]]]]]] eqn:Ek;
    try (unfold process_sync_metadata_to_spl_token in H; destruct (c_infos c) as [|? [|? [|? [|? [|? [|? [|? ?]]]]]]]; discriminate).
  destruct (process_sync_spl_inv _ _ _ _ _ _ _ _ _ _ _ _ Ek Hc H) as (_ & _ & _ & Ha & Hmd & _ & um & d & _ & _ & X).
  apply tame_esc, away_tame. intros k A.
  assert (N1 : k <> md) by (intros ->; rewrite Hmd, metaplex_not_ata in A; discriminate).
  assert (N2 : k <> a) by (apply ata_neq_tw; [exact A|rewrite Ha; apply is_tw_pda_authority]).
  destruct X as [(_ & _ & _ & _ & _ & _ & m & _ & _ & ->)|(_ & _ & old & _ & _ & _ & _ & ->)]; cbv zeta; rewrite !upd_other by congruence; split; reflexivity.
Qed.
Lemma set_pointer_esc e c v l l' : c_prog c = tw_id -> process_set_canonical_pointer e c v l = Ok l' -> Esc l -> Esc l'.
Proof.
  intros Hc H. destruct (map i_key (c_infos c)) as [|a [|p [|u [|x rest]]]] eqn:Ek;
    try (unfold process_set_canonical_pointer in H; destruct (c_infos c) as [|? [|? [|? [|? ?]]]]; discriminate).
  destruct (process_set_pointer_inv _ _ _ _ _ _ _ _ _ _ Ek Hc H) as (Sa & Tu & Hp & _ & (m & Um & Am) & _ & Lp & Lo).
  apply tame_esc, away_tame. intros k A. assert (N : k <> p) by (apply ata_neq_tw; [exact A|rewrite Hp; apply is_tw_pda_canonical]).
  rewrite (Lo k N). split; reflexivity.
Qed.

(** ** Histories *)
Lemma step_esc e0 a l l' : Inv e0 l -> step e0 a l l' -> Esc l -> Esc l'.
Proof.
  intros I S. destruct S as [e accounts input l l' L NS R|e p cpi accounts ix l l' L T NS X|e p wallet mnt l l' L T X|l l' W].
  - pose proof L as [C _]. pose proof (Inv_curve _ _ _ C I) as Ie. pose proof (lawful_self _ _ L) as Le.
    unfold runs, process_instruction in R. apply bind_ok in R. destruct R as (i & Ei & H).
    assert (CP : c_prog (mkCtx tw_id accounts) = tw_id) by reflexivity.
    assert (NS' : no_tw_signer (c_infos (mkCtx tw_id accounts))) by exact NS.
    destruct i; cbn [process_instr map_instr] in H.
    + exact (create_esc _ _ _ _ _ CP H).
    + exact (wrap_esc _ _ _ _ _ Ie Le NS' CP H).
    + exact (unwrap_esc _ _ _ _ _ Ie Le NS' CP H).
    + exact (close_esc _ _ _ _ CP H).
    + exact (sync_t22_esc _ _ _ _ CP H).
    + exact (sync_spl_esc _ _ _ _ CP H).
    + exact (set_pointer_esc _ _ _ _ _ CP H).
  - exact (tok_exec_esc _ _ _ _ _ _ _ _ L I T NS X).
  - exact (ata_esc _ _ _ _ _ _ T X).
  - exact (world_esc _ _ W).
Qed.
Lemma history_esc e0 past l : history e0 past l -> Esc l.
Proof.
  induction 1 as [l G|past l a l' H IH S]; [|exact (step_esc _ _ _ _ (history_inv _ _ _ H) S IH)].
  destruct G as (_ & _ & _ & _ & PD). intros w m p b P T. left. exact (PD _ (or_intror (is_ata_key w p m b T))).
Qed.
Lemma reachable_esc e0 l : reachable e0 l -> Esc l.
Proof. intros [past H]. exact (history_esc _ _ _ H). Qed.
