(** * PropTokenAccount.v — C60: what JavaScript's createTokenAccount creates, and for which mints it cannot work. *)
From Verif Require Import Base Codec State Pda TokenProg Cpi Ata Meta Processor Builders Cli Js JsAccounts Tac PdaProofs TokProofs ProcProofs CliProofs CreateProofs Spec SpecLemmas HistorySpec CliSpec
  InvState InvTw InvHist HistProofs Demo Demo2 DemoHist PropHistory PropNested PropEscrow PropCliWrap PropCliClose.

(** ** Specification *)
(** A fresh key pair: nothing stands at its address, and it is no derived address. *)
Definition fresh_key (l : ledger) (k : pubkey) : Prop :=
  lamports l k = 0 /\ unallocated l k /\ is_tw_pda k = false /\ is_ata k = false /\ ~ native_mint k.
(** The mint forces its token accounts to carry extensions: transfer fees, transfer hook, non-transferable, pausable. *)
Definition demanding (m : mint) : Prop :=
  exists x, In x (m_exts m) /\ ((exists c, x = MxTransferFee c) \/ x = MxNonTransferable \/ (exists a b, x = MxTransferHook a b) \/ exists a b, x = MxPausable a b).
(** An empty token account as InitializeAccount leaves it. *)
Definition new_account (t : tokacc) (mnt owner : pubkey) (s : acct_state) : Prop :=
  t_mint t = mnt /\ t_owner t = owner /\ t_amount t = 0 /\ t_delegate t = None /\ t_close t = None /\ t_state t = s /\ t_exts t = [].

(** ** Proofs *)
Lemma required_none xs : flat_map required_exts_of xs = [] <->
  ~ exists x, In x xs /\ ((exists c, x = MxTransferFee c) \/ x = MxNonTransferable \/ (exists a b, x = MxTransferHook a b) \/ exists a b, x = MxPausable a b).
Proof.
  split.
  - intros H (x & Hx & Q). assert (E : required_exts_of x = []). { apply in_split in Hx. destruct Hx as (p & q & ->). rewrite flat_map_app in H. apply app_eq_nil in H. destruct H as [_ H]. cbn [flat_map] in H. apply app_eq_nil in H. exact (proj1 H). }
    destruct Q as [[c ->]|[-> |[(a & b & ->)|(a & b & ->)]]]; discriminate E.
  - intro N. induction xs as [|x r IH]; [reflexivity|]. cbn [flat_map].
    rewrite IH by (intros (y & Hy & Q); apply N; exists y; split; [right; exact Hy|exact Q]). rewrite app_nil_r.
    destruct x; try reflexivity; exfalso; apply N; eexists; (split; [left; reflexivity|]).
    all: first [left; eexists; reflexivity|right; left; reflexivity|right; right; left; eexists; eexists; reflexivity|right; right; right; eexists; eexists; reflexivity].
Qed.
Lemma init_exts_plain p m : p = spl_token_id \/ ~ demanding m -> init_account_exts p m false = [].
Proof.
  intros [-> |N]; unfold init_account_exts; [rewrite pk_eqb_refl; reflexivity|]. destruct (pk_eqb p spl_token_id); [reflexivity|].
  unfold required_init_account_exts. rewrite (proj2 (required_none (m_exts m)) N). reflexivity.
Qed.
Lemma init_exts_demanding p m : p <> spl_token_id -> demanding m -> init_account_exts p m false <> [].
Proof.
  intros P N E. unfold init_account_exts in E. rewrite (proj2 (pk_eqb_neq _ _) P) in E. cbn [app] in E. apply map_eq_nil in E.
  apply (proj1 (required_none (m_exts m))); [|exact N]. unfold required_init_account_exts in E.
  revert E. generalize (flat_map required_exts_of (m_exts m)). intros [|y r] E; [reflexivity|]. cbn in E. discriminate E.
Qed.
Lemma tok_space_165 xs : tok_space xs = 165 -> xs = [].
Proof.
  destruct xs as [|x r]; [reflexivity|]. unfold tok_space, adjust_multisig. intro H.
  destruct (166 + tlv_total (map acct_ext_len (x :: r)) =? multisig_len); lia.
Qed.
Lemma init_account_live e p k mnt owner m l : a_owner (l k) = p -> a_data (l k) = DRaw (zeros 165) -> mint_account l mnt p m -> (p = spl_token_id -> m_exts m = []) ->
  init_account_exts p m false = [] -> e_rent e 165 <= lamports l k ->
  tok_init_account e p [meta_w k true; meta_r mnt false; meta_r owner false] k mnt owner false l =
  Ok (upd l k (with_data (DTok (mkTok mnt owner (if is_native_mint p mnt then lamports l k - e_rent e 165 else 0) None 0 (ext_default_state m)
                                      (if is_native_mint p mnt then Some (e_rent e 165) else None) None [])) (l k))).
Proof.
  intros O D [Om [Dm Im]] Sp X R. unfold tok_init_account, unpack_mint, pod_unpack_mint. rewrite Dm, Im. cbn [bind].
  rewrite bind_guard_true. 2:{ destruct (pk_eqb p spl_token_id) eqn:E; [|reflexivity]. apply pk_eqb_eq in E. rewrite (Sp E). reflexivity. }
  cbn [bind]. rewrite bind_guard_true by (rewrite Om, pk_eqb_refl; apply orb_true_r). cbv zeta. rewrite X, D.
  rewrite bind_guard_true. 2:{ rewrite all_zero_zeros, length_zeros. reflexivity. }
  rewrite bind_guard_true by (apply N.leb_le; exact R). unfold set_data.
  rewrite bind_guard_true by (unfold is_wr; cbn; rewrite pk_eqb_refl; reflexivity). rewrite bind_guard_true by (rewrite O; apply pk_eqb_refl). reflexivity.
Qed.
Lemma zeros_nil : zeros 0 = []. Proof. reflexivity. Qed.
Lemma create_account_live payer k n p l : wallet l payer -> payer <> k -> fresh_key l k -> n <= lamports l payer -> n < two64 ->
  exists l1, sys_create_account payer k n 165 p l = Ok l1 /\ l1 k = mkAcc n (DRaw (zeros 165)) p /\
    l1 payer = mkAcc (lamports l payer - n) (DRaw []) system_id /\ only_changed l l1 [payer; k].
Proof.
  intros (Op & Dp & _ & _) Ne (Z & [D O] & _) Hn Hb. unfold sys_create_account. unfold lamports in Z.
  rewrite bind_guard_true by (rewrite Z; reflexivity). rewrite bind_guard_true by (rewrite D, O; reflexivity).
  rewrite bind_guard_true by reflexivity. set (l0 := upd l k (mkAcc (a_lamports (l k)) (DRaw (zeros 165)) p)).
  assert (E : l0 payer = l payer) by (apply upd_other; intro X; apply Ne; symmetry; exact X).
  assert (F : l0 k = mkAcc 0 (DRaw (zeros 165)) p) by (unfold l0; rewrite upd_same, Z; reflexivity).
  destruct (sys_transfer_live payer k n l0) as (l1 & H1 & H2 & H3 & H4).
  - rewrite E. exact Op.
  - rewrite E, Dp. reflexivity.
  - rewrite E. exact Hn.
  - exact Ne.
  - rewrite F. cbn [a_lamports]. exact Hb.
  - exists l1. split; [exact H1|]. split; [rewrite H3, F; reflexivity|]. split; [rewrite H2, E, Dp, Op; reflexivity|].
    intros q Hq. rewrite (H4 q) by (intro X; apply Hq; cbn; rewrite X; auto). unfold l0. apply upd_other. intro X. apply Hq. right. left. exact X.
Qed.

Lemma create_token_account_steps : forall e0 e l payer k mnt owner p m,
  reachable e0 l -> spl_or_t22 p -> mint_account l mnt p m -> ~ demanding m -> wallet l payer -> payer <> k -> fresh_key l k ->
  e_rent e 165 <= lamports l payer -> e_rent e 165 < two64 ->
  exists ixs l1 l' t, js_create_token_account e payer k mnt owner p = Ok ixs /\ run_setup e ixs l = Ok l' /\
    l' k = mkAcc (e_rent e 165) (DTok t) p /\ new_account t mnt owner (ext_default_state m) /\
    paid l l' payer (e_rent e 165) /\ only_changed l l' [payer; k] /\
    only_changed l l1 [payer; k] /\
    (lawful e0 e -> step e0 AWorld l l1 /\ step e0 (ATokenProgram e p false [meta_w k true; meta_r mnt false; meta_r owner false] (TiInitializeAccount owner false)) l1 l').
Proof.
  intros e0 e l payer k mnt owner p m R T M N Wp Ne Fk Hr Hb. pose proof (reachable_inv _ _ R) as I.
  assert (Sp : p = spl_token_id -> m_exts m = []).
  { intro E. destruct M as [O [D _]]. assert (T' : token_program (a_owner (l mnt))) by (rewrite O; exact T). pose proof (inv_mint _ _ _ _ I T' D) as Q. rewrite O in Q.
    destruct Q as (_ & _ & _ & Q & _). exact (Q E). }
  destruct (create_account_live payer k (e_rent e 165) p l Wp Ne Fk Hr Hb) as (l1 & H1 & K1 & P1 & C1).
  assert (Nk : mnt <> k). { intros ->. destruct Fk as (_ & [D _] & _). destruct M as [_ [X _]]. rewrite D in X. discriminate X. }
  assert (Np : mnt <> payer). { intros ->. destruct Wp as (_ & D & _). destruct M as [_ [X _]]. rewrite D in X. discriminate X. }
  assert (Em : l1 mnt = l mnt) by (apply C1; intros [X|[X|[]]]; [apply Np|apply Nk]; symmetry; exact X).
  assert (M1 : mint_account l1 mnt p m) by (unfold mint_account, mint_data; rewrite Em; exact M).
  assert (X : init_account_exts p m false = []) by (apply init_exts_plain; right; exact N).
  assert (Ei : exists init, js_create_token_account e payer k mnt owner p = Ok [SxCreateAccount payer k (e_rent e 165) 165 p; SxInitializeAccount p k mnt owner] /\ init = tt).
  { exists tt. split; [|reflexivity]. unfold js_create_token_account, js_initialize_fn. destruct T as [-> | ->]; reflexivity. }
  destruct Ei as (_ & Ei & _).
  pose proof (init_account_live e p k mnt owner m l1) as L. rewrite K1 in L. specialize (L eq_refl eq_refl M1 Sp X).
  unfold lamports in L at 1. rewrite K1 in L. specialize (L (N.le_refl _)).
  set (t := mkTok mnt owner (if is_native_mint p mnt then lamports l1 k - e_rent e 165 else 0) None 0 (ext_default_state m)
                  (if is_native_mint p mnt then Some (e_rent e 165) else None) None []) in L.
  exists [SxCreateAccount payer k (e_rent e 165) 165 p; SxInitializeAccount p k mnt owner], l1, (upd l1 k (with_data (DTok t) (l1 k))), t.
  split; [exact Ei|]. split.
  { cbn [run_setup run_setup_ix]. rewrite H1. cbn [bind]. unfold tok_exec. cbn [map meta_w meta_r i_key].
    rewrite <- K1 in L. rewrite L. reflexivity. }
  split; [rewrite upd_same, K1; reflexivity|]. split.
  { unfold new_account, t. cbn. repeat split. destruct (is_native_mint p mnt); [unfold lamports; rewrite K1; apply N.sub_diag|reflexivity]. }
  split. { unfold paid, lamports. rewrite upd_other by (intro Q; apply Ne; symmetry; exact Q). rewrite P1. cbn [a_lamports a_data a_owner]. destruct Wp as (Op & Dp & _). rewrite Op, Dp. split; [unfold lamports in *; lia|split; reflexivity]. }
  split; [intros q Hq; rewrite upd_other by (intro Q; apply Hq; right; left; exact Q); exact (C1 q Hq)|].
  split; [exact C1|]. intro La.
  assert (S1 : step e0 AWorld l l1).
  { apply st_world. intro q. destruct Fk as (_ & [Dk Ok'] & Pk & Ak & Nk'). destruct Wp as (Op & Dp & _ & _).
    assert (Q : q = payer \/ q = k \/ l1 q = l q).
    { destruct (pk_eqb q payer) eqn:E1; [left; apply pk_eqb_eq; exact E1|]. destruct (pk_eqb q k) eqn:E2; [right; left; apply pk_eqb_eq; exact E2|].
      right; right. apply C1. apply pk_eqb_neq in E1. apply pk_eqb_neq in E2. intros [Q|[Q|[]]]; [apply E1|apply E2]; symmetry; exact Q. }
    assert (Z : ~ ruled system_id) by (intros [Z|[Z|Z]]; discriminate Z).
    destruct Q as [-> |[-> |Q]].
    - rewrite P1, Op, Dp. cbn [a_data a_owner a_lamports].
      split; [intro Y; exfalso; exact (Z Y)|]. split; [auto|]. split; [intros _ Y; exfalso; exact (Z Y)|]. split; [intros _; left; auto|auto].
    - rewrite K1, Ok'. cbn [a_data a_owner a_lamports].
      split; [intro Y; exfalso; exact (Z Y)|]. split; [intro Y; rewrite Pk in Y; discriminate Y|]. split; [intros _ _; left; exists 165; reflexivity|].
      split; [intro Y; exfalso; exact (Nk' Y)|intro Y; rewrite Ak in Y; discriminate Y].
    - rewrite Q. split; [intros _; split; [reflexivity|split; [reflexivity|apply N.le_refl]]|]. split; [auto|]. split; [intros Y Y'; exfalso; exact (Y Y')|]. split; [intros _; left; auto|auto]. }
  assert (S2 : step e0 (ATokenProgram e p false [meta_w k true; meta_r mnt false; meta_r owner false] (TiInitializeAccount owner false)) l1 (upd l1 k (with_data (DTok t) (l1 k)))).
  { apply st_token_program; [exact La|exact T| |].
    - intros q [x (Hx & Kx & Sx)]. destruct Fk as (_ & _ & Pk & _).
      destruct Hx as [<-|[<-|[<-|[]]]]; [rewrite <- Kx; exact Pk|discriminate Sx|discriminate Sx].
    - unfold tok_exec. cbn [map meta_w meta_r i_key]. rewrite <- K1 in L. exact L. }
  split; [exact S1|exact S2].
Qed.
Lemma charge_fresh payer fee l k : payer <> k -> fresh_key l k -> fresh_key (charge payer fee l) k.
Proof. intros N F. unfold fresh_key, lamports, unallocated. rewrite (charge_other payer fee l k) by (intro X; apply N; symmetry; exact X). exact F. Qed.
Lemma charge_wallet_k payer fee l : wallet l payer -> wallet (charge payer fee l) payer.
Proof. intros (A & B & R). destruct (charge_same payer fee l payer) as [D O]. unfold wallet. rewrite D, O. split; [exact A|split; [exact B|exact R]]. Qed.
(** The same with the fee: the ledgers passed through. *)
Lemma setup_steps : forall e0 e fee l payer k mnt owner p m,
  reachable e0 l -> spl_or_t22 p -> mint_account l mnt p m -> ~ demanding m -> wallet l payer -> payer <> k -> fresh_key l k ->
  fee + e_rent e 165 + e_rent e 0 <= lamports l payer -> e_rent e 165 < two64 ->
  exists ixs l1 l' t, js_create_token_account e payer k mnt owner p = Ok ixs /\ send_setup e fee payer ixs l = (l', Ok tt) /\
    l' k = mkAcc (e_rent e 165) (DTok t) p /\ new_account t mnt owner (ext_default_state m) /\
    paid l l' payer (fee + e_rent e 165) /\ only_changed l l' [payer; k] /\
    only_changed l l1 [payer; k] /\
    (lawful e0 e -> step e0 AWorld l (charge payer fee l) /\ step e0 AWorld (charge payer fee l) l1 /\
       step e0 (ATokenProgram e p false [meta_w k true; meta_r mnt false; meta_r owner false] (TiInitializeAccount owner false)) l1 l').
Proof.
  intros e0 e fee l payer k mnt owner p m R T M N Wp Ne Fk Hr Hb.
  pose proof Wp as (Op & Dp & _). pose proof (charge_reachable e0 l payer fee R Op) as R0. pose proof (charge_mint payer fee l mnt p m M) as M0.
  pose proof (charge_fresh payer fee l k Ne Fk) as Fk0. pose proof (charge_wallet_k payer fee l Wp) as Wp0.
  assert (Hf : fee <= a_lamports (l payer)) by (unfold lamports in Hr; clear -Hr; lia).
  destruct (charge_paid payer fee l Hf) as [P0 O0].
  assert (Hr0 : e_rent e 165 <= lamports (charge payer fee l) payer) by (destruct P0 as (Q & _); clear -Q Hr; lia).
  assert (Rk0 : rent_ok e (l payer) (charge payer fee l payer) = true).
  { apply rent_ok_enough. rewrite (proj1 (charge_same payer fee l payer)), Dp. destruct P0 as (Q & _). unfold lamports in Q, Hr. change (data_len (DRaw [])) with 0. clear -Q Hr. lia. }
  destruct (create_token_account_steps e0 e (charge payer fee l) payer k mnt owner p m R0 T M0 N Wp0 Ne Fk0 Hr0 Hb) as (ixs & l1 & l' & t & H1 & H2 & H3 & H4 & H5 & H6 & H7 & H8).
  assert (Ex : ixs = [SxCreateAccount payer k (e_rent e 165) 165 p; SxInitializeAccount p k mnt owner]).
  { unfold js_create_token_account, js_initialize_fn in H1. destruct T as [-> | ->]; injection H1 as <-; reflexivity. }
  assert (Pd : paid l l' payer (fee + e_rent e 165)).
  { destruct P0 as (Q1 & Q2 & Q3). destruct H5 as (Q4 & Q5 & Q6). split; [clear -Q1 Q4; lia|]. rewrite Q5, Q6. split; [exact Q2|exact Q3]. }
  assert (Rents : forallb (fun q => rent_ok e (charge payer fee l q) (l' q)) (setup_writes payer ixs) = true).
  { assert (Rp : rent_ok e (charge payer fee l payer) (l' payer) = true).
    { apply rent_ok_enough. destruct Pd as (Q1 & Q2 & _). rewrite Q2, Dp. change (data_len (DRaw [])) with 0. unfold lamports in *. clear -Q1 Hr. lia. }
    assert (Rk : rent_ok e (charge payer fee l k) (l' k) = true).
    { apply rent_ok_enough. rewrite H3. cbn [a_data a_lamports data_len]. destruct H4 as (_ & _ & _ & _ & _ & _ & X). rewrite X. reflexivity. }
    apply forallb_forall. intros q Hq. rewrite Ex in Hq. unfold setup_writes in Hq. cbn [flat_map app] in Hq. destruct Hq as [<-|[<-|[<-|[<-|[]]]]]; [exact Rp|exact Rp|exact Rk|exact Rk]. }
  exists ixs, l1, l', t. split; [exact H1|]. split.
  { unfold send_setup. apply N.leb_le in Hf. rewrite Op, pk_eqb_refl, Dp, Hf, Rk0. cbn [data_is_empty andb negb]. rewrite H2, Rents. reflexivity. }
  split; [exact H3|]. split; [exact H4|]. split; [exact Pd|]. split.
  { intros q Hq. rewrite (H6 q Hq). apply O0. intros [X|[]]. apply Hq. left. exact X. }
  split. { intros q Hq. rewrite (H7 q Hq). apply O0. intros [X|[]]. apply Hq. left. exact X. }
  intro La. destruct (H8 La) as [S1 S2]. split; [apply st_world; exact (charge_world payer fee l Op)|]. split; [exact S1|exact S2].
Qed.
(** For a mint whose accounts need no extensions the account is created as asked: the payer pays its rent and the fee, nothing else changes, and the
    resulting state is again a reachable one. *)
Theorem C60_creates : forall e0 e fee l payer k mnt owner p m,
  reachable e0 l -> spl_or_t22 p -> mint_account l mnt p m -> ~ demanding m -> wallet l payer -> payer <> k -> fresh_key l k ->
  fee + e_rent e 165 + e_rent e 0 <= lamports l payer -> e_rent e 165 < two64 ->
  exists ixs l' t, js_create_token_account e payer k mnt owner p = Ok ixs /\ send_setup e fee payer ixs l = (l', Ok tt) /\
    l' k = mkAcc (e_rent e 165) (DTok t) p /\ new_account t mnt owner (ext_default_state m) /\
    paid l l' payer (fee + e_rent e 165) /\ only_changed l l' [payer; k] /\
    (lawful e0 e -> reachable e0 l').
Proof.
  intros e0 e fee l payer k mnt owner p m R T M N Wp Ne Fk Hr Hb.
  destruct (setup_steps e0 e fee l payer k mnt owner p m R T M N Wp Ne Fk Hr Hb) as (ixs & l1 & l' & t & H1 & H2 & H3 & H4 & H5 & H6 & _ & H8).
  exists ixs, l', t. split; [exact H1|]. split; [exact H2|]. split; [exact H3|]. split; [exact H4|]. split; [exact H5|]. split; [exact H6|].
  intro La. destruct (H8 La) as (S0 & S1 & S2). destruct R as [past H]. exists (l1 :: charge payer fee l :: l :: past).
  exact (h_step e0 _ _ _ _ (h_step e0 _ _ _ _ (h_step e0 _ _ _ _ H S0) S1) S2).
Qed.
Print Assumptions C60_creates.

(** Accounts for wrapped mints can always be created, and can be used at once. *)
Theorem C60_wrapped : forall e0 e fee l payer k u wtp owner m,
  reachable e0 l -> spl_or_t22 wtp -> mint_account l (wrapped_mint_of e0 u wtp) wtp m ->
  wallet l payer -> payer <> k -> fresh_key l k -> fee + e_rent e 165 + e_rent e 0 <= lamports l payer -> e_rent e 165 < two64 ->
  exists ixs l' t, js_create_token_account e payer k (wrapped_mint_of e0 u wtp) owner wtp = Ok ixs /\ send_setup e fee payer ixs l = (l', Ok tt) /\
    l' k = mkAcc (e_rent e 165) (DTok t) wtp /\ new_account t (wrapped_mint_of e0 u wtp) owner Initialized /\
    paid l l' payer (fee + e_rent e 165) /\ only_changed l l' [payer; k] /\ (lawful e0 e -> reachable e0 l').
Proof.
  intros e0 e fee l payer k u wtp owner m R T M Wp Ne Fk Hr Hb. pose proof R as [past H].
  destruct (wrapped_kinds e0 past l u wtp l m wtp H T (or_introl eq_refl) M T) as [_ K].
  assert (N : ~ demanding m).
  { intros (x & Hx & Q). destruct (K x Hx) as [Z|[Z|(a & b & Z)]]; destruct Q as [[c ->]|[-> |[(a' & b' & ->)|(a' & b' & ->)]]]; discriminate Z. }
  assert (D : ext_default_state m = Initialized).
  { unfold ext_default_state. rewrite (plain_find _ _ K); [reflexivity| |reflexivity|reflexivity]. intros y Ky. destruct y; try discriminate Ky; reflexivity. }
  pose proof (C60_creates e0 e fee l payer k _ owner wtp m R T M N Wp Ne Fk Hr Hb) as C. rewrite D in C. exact C.
Qed.
Print Assumptions C60_wrapped.

(** FINDING: the helper allocates 165 bytes whatever the mint: for a Token-2022 mint with transfer fees, a transfer hook, non-transferable or pausable
    tokens its transaction always fails. *)
Lemma demanding_fails : forall e l payer k mnt owner m ixs l',
  mint_account l mnt t22_id m -> demanding m -> mnt <> k -> mnt <> payer ->
  js_create_token_account e payer k mnt owner t22_id = Ok ixs -> run_setup e ixs l <> Ok l'.
Proof.
  intros e l payer k mnt owner m ixs l' [Om [Dm Im]] N Nk Np J H. injection J as <-. cbn [run_setup run_setup_ix] in H.
  apply bind_ok in H. destruct H as (l1 & H1 & H). apply bind_ok in H. destruct H as (l2 & H2 & _).
  unfold sys_create_account in H1. apply bind_ok in H1. destruct H1 as ([] & _ & H1). apply bind_ok in H1. destruct H1 as ([] & _ & H1).
  apply bind_ok in H1. destruct H1 as ([] & _ & H1). destruct (sys_transfer_inv _ _ _ _ _ H1) as (_ & _ & F).
  destruct (F k) as (Dk & _). rewrite upd_same in Dk. cbn [a_data] in Dk. destruct (F mnt) as (Dm' & _). rewrite upd_other in Dm' by (intro X; apply Nk; symmetry; exact X). rewrite Dm in Dm'.
  unfold tok_exec in H2. cbn [map meta_w meta_r i_key] in H2. unfold tok_init_account, unpack_mint, pod_unpack_mint in H2. rewrite Dm', Im in H2. cbn [bind] in H2.
  apply bind_ok in H2. destruct H2 as (m' & E & H2). assert (m' = m) by (apply bind_ok in E; destruct E as ([] & _ & E); injection E as <-; reflexivity). subst m'.
  apply bind_ok in H2. destruct H2 as ([] & _ & H2). cbv zeta in H2. apply bind_ok in H2. destruct H2 as ([] & G & _). apply guard_ok in G.
  rewrite Dk, length_zeros in G. apply andb_true_iff in G. destruct G as [_ G]. apply N.eqb_eq in G. symmetry in G. apply tok_space_165 in G.
  revert G. apply init_exts_demanding; [discriminate|exact N].
Qed.

Theorem C60_demanding_refuted : forall e fee l payer k mnt owner m ixs l',
  mint_account l mnt t22_id m -> demanding m -> mnt <> k -> mnt <> payer ->
  js_create_token_account e payer k mnt owner t22_id = Ok ixs -> send_setup e fee payer ixs l <> (l', Ok tt).
Proof.
  intros e fee l payer k mnt owner m ixs l' M D Nk Np J H. unfold send_setup in H. destruct (negb _) in H; [discriminate H|].
  destruct (run_setup e ixs (charge payer fee l)) as [l2|er] eqn:E; [|discriminate H].
  exact (demanding_fails e (charge payer fee l) payer k mnt owner m ixs l2 (charge_mint payer fee l mnt t22_id m M) D Nk Np J E).
Qed.
Print Assumptions C60_demanding_refuted.

(** A program that is no token program is refused. *)
Theorem C60_other_program : forall e payer k mnt owner p, ~ spl_or_t22 p -> exists err, js_create_token_account e payer k mnt owner p = Err err.
Proof.
  intros e payer k mnt owner p N. unfold js_create_token_account, js_initialize_fn.
  destruct (pk_eqb p spl_token_id) eqn:E1; [exfalso; apply N; left; apply pk_eqb_eq; exact E1|].
  destruct (pk_eqb p t22_id) eqn:E2; [exfalso; apply N; right; apply pk_eqb_eq; exact E2|]. eexists. reflexivity.
Qed.
Print Assumptions C60_other_program.

(** ** Examples *)
Example C60_nonvacuous : reachable demo_env (now_of story) /\ wallet (now_of story) d_alice /\ fresh_key (now_of story) (PkRaw 178) /\
  (exists m, mint_account (now_of story) (wrapped_mint_of demo_env d_u t22_id) t22_id m) /\ 5 + e_rent demo_env 165 + e_rent demo_env 0 <= lamports (now_of story) d_alice.
Proof.
  split; [exists (past_of story); apply played_history; vm_compute; reflexivity|]. split; [repeat split; vm_compute; reflexivity|].
  split; [|split].
  - split; [vm_compute; reflexivity|]. split; [split; vm_compute; reflexivity|]. split; [reflexivity|]. split; [reflexivity|]. intros [X|X]; discriminate X.
  - destruct (a_data (now_of story (d_w t22_id))) as [| |m| | |] eqn:E; try (exfalso; vm_compute in E; discriminate E).
    exists m. split; [vm_compute; reflexivity|]. split; [exact E|]. vm_compute in E. injection E as <-. reflexivity.
  - vm_compute. discriminate.
Qed.
Example C60_demanding_example : exists m ixs, reachable demo_env (now_of fee_story) /\ mint_account (now_of fee_story) d_u t22_id m /\ demanding m /\
  js_create_token_account demo_env d_alice (PkRaw 178) d_u d_alice t22_id = Ok ixs /\ forall l', send_setup demo_env 5 d_alice ixs (now_of fee_story) <> (l', Ok tt).
Proof.
  destruct (a_data (now_of fee_story d_u)) as [| |m| | |] eqn:E; try (exfalso; vm_compute in E; discriminate E).
  assert (M : mint_account (now_of fee_story) d_u t22_id m).
  { split; [vm_compute; reflexivity|]. split; [exact E|]. vm_compute in E. injection E as <-. reflexivity. }
  assert (D : demanding m). { clear M. vm_compute in E. injection E as <-. eexists. split; [left; reflexivity|]. left. eexists. reflexivity. }
  exists m. eexists. split; [exists (past_of fee_story); apply played_history; vm_compute; reflexivity|]. split; [exact M|]. split; [exact D|].
  split; [reflexivity|]. intro l'.
  exact (C60_demanding_refuted demo_env 5 (now_of fee_story) d_alice (PkRaw 178) d_u d_alice m _ l' M D ltac:(discriminate) ltac:(discriminate) eq_refl).
Qed.
