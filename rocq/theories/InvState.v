(** * InvState.v — the invariant of reachable states, and why steps that token-wrap does not sign
    preserve it. *)
From Verif Require Import Base Codec State Pda TokenProg Cpi Ata Meta Processor Tac PdaProofs TokProofs FrameProofs ProcProofs
  Spec SpecLemmas CloseProofs InvTok InvCons HistorySpec.

(** ** The invariant *)
(** Extensions have legal contents (fee rates within 100%, ...). *)
Definition exts_wf (x : list mint_ext) : Prop := Forall (fun y => mint_ext_wf y = true) x.
Lemma exts_wf_snoc x y : exts_wf x -> mint_ext_wf y = true -> exts_wf (x ++ [y]).
Proof. intros H Y. apply Forall_app. split; [exact H|constructor; [exact Y|constructor]]. Qed.
Lemma exts_wf_replace x y : exts_wf x -> mint_ext_wf y = true -> exts_wf (replace_ext y x).
Proof. intros H Y. induction H as [|z r Hz Hr IH]; [constructor|]. cbn. destruct (mint_ext_same y z); constructor; auto. Qed.
Lemma exts_wf_withheld n x : exts_wf x -> exts_wf (set_fee_withheld n x).
Proof. intros H. induction H as [|z r Hz Hr IH]; [constructor|]. destruct z; cbn; constructor; auto. Qed.
Lemma exts_wf_metadata t x : exts_wf x -> exts_wf (replace_metadata t x).
Proof. intros H. induction H as [|z r Hz Hr IH]; [constructor|]. destruct z; cbn; constructor; auto. Qed.
Lemma initializable_wf x : mint_ext_initializable x = true -> mint_ext_wf x = true.
Proof. unfold mint_ext_initializable. intro H. apply andb_true_iff in H. tauto. Qed.
Definition mint_ok (p : pubkey) (m : mint) : Prop :=
  (m_init m = false -> m_supply m = 0) /\ m_supply m < two64 /\ distinct_mint_exts m /\
  (p = spl_token_id -> m_exts m = []) /\ (m_init m = true -> tight m) /\ exts_wf (m_exts m).
Definition tok_ok (p : pubkey) (t : tokacc) : Prop :=
  distinct_acct_exts t /\ (p = spl_token_id -> t_exts t = []) /\
  (t_native t <> None <-> is_native_mint p (t_mint t) = true) /\
  (is_tw_pda (t_owner t) = true -> t_delegate t = None /\ (t_native t <> None -> t_close t = None)).
Definition data_ok (p : pubkey) (d : data) : Prop :=
  match d with DMint m => mint_ok p m | DTok t => tok_ok p t | _ => True end.

Definition wrapped_exts (p w a : pubkey) (x : list mint_ext) : Prop :=
  promised_extensions p w a x \/
  (p = t22_id /\ exists t, x = [MxConfidentialTransferMint None true None; MxMetadataPointer (Some a) (Some w); MxTokenMetadata t] /\
     tm_update_authority t = Some a /\ tm_mint t = w /\ distinct_keys (tm_additional t)).
Definition wrapped_acct (e0 : env) (p w : pubkey) (a : account) : Prop :=
  a_owner a = p /\ exists m, a_data a = DMint m /\ m_init m = true /\ m_auth m = Some (authority_of e0 w) /\
    wrapped_exts p w (authority_of e0 w) (m_exts m).
Definition blank (a : account) : Prop := a_data a = DRaw [] /\ a_owner a = system_id.
Definition pda_ok (e0 : env) (k : pubkey) (a : account) : Prop :=
  blank a \/
  (exists u p, token_program p /\ k = wrapped_mint_of e0 u p /\ wrapped_acct e0 p k a) \/
  (exists u p, token_program p /\ k = backpointer_of e0 (wrapped_mint_of e0 u p) /\ a_owner a = tw_id /\ a_data a = DKey u) \/
  (exists u v, k = canonical_pointer_of e0 u /\ a_owner a = tw_id /\ a_data a = DKey v).
Definition acct_ok (e0 : env) (k : pubkey) (a : account) : Prop :=
  (token_program (a_owner a) -> data_ok (a_owner a) (a_data a)) /\
  (is_tw_pda k = true -> pda_ok e0 k a) /\
  (k = native_mint_2022_id -> a_owner a = t22_id -> a_data a = DMint wrapped_sol_mint).
Record Inv (e0 : env) (l : ledger) : Prop := mkInv {
  inv_acct : forall k, acct_ok e0 k (l k);
  inv_pair : forall u p, token_program p -> (blank (l (wrapped_mint_of e0 u p)) <-> blank (l (backpointer_of e0 (wrapped_mint_of e0 u p))));
  inv_native : forall k t, a_owner (l k) = t22_id -> a_data (l k) = DTok t -> t_mint t = native_mint_2022_id -> a_owner (l native_mint_2022_id) = t22_id;
  inv_cons : forall p v, token_program p -> is_native_mint p v = false -> conserved p v l;
  inv_sol : a_owner (l native_mint_id) = spl_token_id /\ a_data (l native_mint_id) = DMint wrapped_sol_mint }.

Lemma inv_mint e0 l k m : Inv e0 l -> token_program (a_owner (l k)) -> a_data (l k) = DMint m -> mint_ok (a_owner (l k)) m.
Proof. intros I T D. destruct (inv_acct _ _ I k) as (A & _). specialize (A T). now rewrite D in A. Qed.
Lemma inv_tok e0 l k t : Inv e0 l -> token_program (a_owner (l k)) -> a_data (l k) = DTok t -> tok_ok (a_owner (l k)) t.
Proof. intros I T D. destruct (inv_acct _ _ I k) as (A & _). specialize (A T). now rewrite D in A. Qed.
Lemma inv_pda e0 l k : Inv e0 l -> is_tw_pda k = true -> pda_ok e0 k (l k).
Proof. intros I P. destruct (inv_acct _ _ I k) as (_ & A & _). exact (A P). Qed.
Lemma inv_mints_fine e0 l p : Inv e0 l -> token_program p -> mints_fine p l.
Proof. intros I T k m O D Hi. subst p. pose proof (inv_mint _ _ _ _ I T D) as (A & _). exact (A Hi). Qed.
Lemma inv_natives_fine e0 l p : Inv e0 l -> token_program p -> natives_fine p l.
Proof. intros I T k t O D. subst p. pose proof (inv_tok _ _ _ _ I T D) as (_ & _ & A & _). exact A. Qed.
Lemma token_not_system p : token_program p -> p <> system_id.
Proof. intros [->| ->]; discriminate. Qed.
Lemma token_not_tw p : token_program p -> p <> tw_id.
Proof. intros [->| ->]; discriminate. Qed.

(** A wrapped mint address holds nothing or the wrapped mint. *)
Lemma inv_wrapped e0 l u p : Inv e0 l -> blank (l (wrapped_mint_of e0 u p)) \/ (token_program p /\ wrapped_acct e0 p (wrapped_mint_of e0 u p) (l (wrapped_mint_of e0 u p))).
Proof.
  intro I. destruct (inv_pda _ _ _ I (is_tw_pda_wrapped e0 u p)) as [B|[(u' & p' & T & E & W)|[(u' & p' & T & E & _)|(u' & v & E & _)]]].
  - left; exact B.
  - apply wrapped_mint_of_inj in E. destruct E as [<- <-]. right. split; [exact T|exact W].
  - exfalso. revert E. apply wrapped_neq_backpointer.
  - exfalso. revert E. apply wrapped_neq_canonical.
Qed.
Lemma inv_backpointer e0 l u p : Inv e0 l -> let b := backpointer_of e0 (wrapped_mint_of e0 u p) in
  blank (l b) \/ (token_program p /\ a_owner (l b) = tw_id /\ a_data (l b) = DKey u).
Proof.
  intros I b. destruct (inv_pda _ _ _ I (is_tw_pda_backpointer e0 (wrapped_mint_of e0 u p))) as [B|[(u' & p' & T & E & W)|[(u' & p' & T & E & O & D)|(u' & v & E & _)]]].
  - left; exact B.
  - exfalso. symmetry in E. revert E. apply wrapped_neq_backpointer.
  - apply backpointer_of_inj in E. apply wrapped_mint_of_inj in E. destruct E as [<- <-]. right. auto.
  - exfalso. revert E. apply backpointer_neq_canonical.
Qed.

(** ** Steps that carry no signature of token-wrap's addresses *)
Lemma unsigned_sig ms k : no_tw_signer ms -> is_tw_pda k = true -> is_sig ms k = true -> False.
Proof. intros N P S. apply signed_is_sig in S. apply N in S. congruence. Qed.
Lemma pda_not_multisig e0 l k m : Inv e0 l -> is_tw_pda k = true -> a_data (l k) <> DMultisig m.
Proof.
  intros I P D. destruct (inv_pda _ _ _ I P) as [[B _]|[(u & p & _ & _ & _ & m' & B & _)|[(u & p & _ & _ & _ & B)|(u & v & _ & _ & B)]]]; congruence.
Qed.
Lemma unsigned_pda e0 l p ms k : Inv e0 l -> no_tw_signer ms -> is_tw_pda k = true -> ~ signed_for p l (is_sig ms) k.
Proof.
  intros I N P [S|(m & _ & D & _)]; [eapply unsigned_sig; eassumption|]. eapply pda_not_multisig; eassumption.
Qed.

(** Wrapped mints lose supply at most; freeze authorities may change. *)
Definition soft (m m' : mint) : Prop :=
  m_auth m' = m_auth m /\ m_decimals m' = m_decimals m /\ m_init m' = m_init m /\ m_exts m' = m_exts m /\ m_len m' = m_len m /\
  m_supply m' <= m_supply m.
Definition softens (a a' : account) : Prop :=
  same_do a a' \/ (token_program (a_owner a) /\ a_owner a' = a_owner a /\ exists m m', a_data a = DMint m /\ a_data a' = DMint m' /\ soft m m').
Lemma soft_refl m : soft m m.
Proof. repeat split; lia. Qed.
Lemma softens_refl a : softens a a.
Proof. left; split; reflexivity. Qed.
Lemma softens_trans a b c : softens a b -> softens b c -> softens a c.
Proof.
  intros [[A1 A2]|(T & O & m & m' & D & D' & S)] [[B1 B2]|(T2 & O2 & n & n' & E & E' & S2)].
  - left. split; congruence.
  - right. rewrite <- A2. split; [exact T2|]. split; [congruence|]. exists n, n'. rewrite <- A1. auto.
  - right. split; [exact T|]. split; [congruence|]. exists m, m'. rewrite B1. auto.
  - right. split; [exact T|]. split; [congruence|]. exists m, n'. split; [exact D|]. split; [exact E'|].
    rewrite D' in E. inversion E; subst n. unfold soft in *. intuition (try congruence). lia.
Qed.

Lemma wrapped_exts_facts p w a x : wrapped_exts p w a x ->
  ext_fee (mkMint None 0 0 true None x 0) = None /\ ext_close_authority (mkMint None 0 0 true None x 0) = None /\
  (forall y, In y x -> match y with MxConfidentialTransferMint b _ _ => b = None | MxMetadataPointer b _ => b = Some a
                                  | MxTokenMetadata t => tm_update_authority t = Some a | _ => False end).
Proof.
  intros [[[_ ->]|[_ ->]]|(_ & t & -> & Hu & _)]; (split; [reflexivity|split; [reflexivity|]]); intros y Hy; cbn in Hy;
    repeat (destruct Hy as [<-|Hy]; [auto|]); contradiction.
Qed.

Lemma ext_metadata_in m t : ext_metadata m = Some t -> In (MxTokenMetadata t) (m_exts m).
Proof.
  unfold ext_metadata. induction (m_exts m) as [|y r IH]; [discriminate|]. cbn.
  destruct y; intro E; try (right; apply IH; exact E). inversion E; subst. left; reflexivity.
Qed.
Lemma change_soft p l sig k d d' o' a m :
  change p l sig k d d' o' -> d = DMint m -> m_init m = true -> m_auth m = Some a -> ~ signed_for p l sig a ->
  wrapped_exts p k a (m_exts m) -> o' = p /\ exists m', d' = DMint m' /\ soft m m'.
Proof.
  intros X D Hi Ha NA Hx. destruct (wrapped_exts_facts _ _ _ _ Hx) as (F1 & F2 & F3).
  assert (UN : forall m0, unpack_uninit_mint d = Ok m0 -> False).
  { intros m0 U. subst d. cbn in U. rewrite Hi in U. discriminate. }
  destruct X; try match goal with H : unpack_uninit_mint _ = Ok _ |- _ => exfalso; exact (UN _ H) end; try (exfalso; congruence);
    match goal with H : d = DMint ?n |- _ => tryif constr_eq n m then fail else (assert (n = m) by congruence; subst n; clear H) end.
  - split; [reflexivity|]. eexists. split; [reflexivity|]. repeat split; assumption.
  - split; [reflexivity|]. eexists. split; [reflexivity|]. repeat split; cbn; lia.
  - exfalso. match goal with H : find _ _ = Some _ |- _ => apply find_some in H; destruct H as [Hin _] end. apply F3 in Hin.
    match goal with H : ext_authority m old = Some _ |- _ => unfold ext_authority in H; destruct old; try contradiction; congruence end.
  - exfalso. change (ext_fee m) with (ext_fee (mkMint None 0 0 true None (m_exts m) 0)) in *. congruence.
  - exfalso. match goal with H : ext_metadata m = Some _ |- _ => apply ext_metadata_in in H; apply F3 in H; congruence end.
  - exfalso. change (ext_close_authority m) with (ext_close_authority (mkMint None 0 0 true None (m_exts m) 0)) in *. congruence.
Qed.
Lemma changes_soft e0 p ms l l' k :
  Inv e0 l -> token_program p -> no_tw_signer ms -> changes p ms l l' -> is_tw_pda k = true -> softens (l k) (l' k).
Proof.
  intros I T N C P. destruct (C k) as [S|(O & _ & X)]; [left; exact S|].
  destruct (inv_pda _ _ _ I P) as [[B1 B2]|[(u & q & Tq & Hk & Oq & m & D & Hi & Ha & Hx)|[(u & q & _ & _ & B & _)|(u & v & _ & B & _)]]].
  - exfalso. rewrite B2 in O. apply (token_not_system _ T). congruence.
  - right. assert (Eq : q = p) by congruence. clear Oq. subst q.
    destruct (change_soft _ _ _ _ _ _ _ _ _ X D Hi Ha (unsigned_pda e0 l p ms _ I N (is_tw_pda_authority e0 k)) Hx) as (O' & m' & D' & S).
    rewrite O. split; [exact T|]. split; [exact O'|]. exists m, m'. auto.
  - exfalso. apply (token_not_tw _ T). congruence.
  - exfalso. apply (token_not_tw _ T). congruence.
Qed.

(** ** Data stays well-formed *)
Lemma kind_same x y : mint_ext_same x y = true <-> mint_ext_kind x = mint_ext_kind y.
Proof.
  destruct x, y; cbn [mint_ext_same mint_ext_kind]; rewrite ?N.eqb_eq; split; intro H; try reflexivity; try discriminate; lia.
Qed.
Lemma distinct_snoc x r : NoDup (map mint_ext_kind r) -> existsb (mint_ext_same x) r = false -> NoDup (map mint_ext_kind (r ++ [x])).
Proof.
  intros H E. rewrite map_app. apply NoDup_app_intro; [exact H|repeat constructor; intros []|].
  intros n Hn [<-|[]]. apply in_map_iff in Hn. destruct Hn as (y & Hy & Hin).
  assert (existsb (mint_ext_same x) r = true) by (apply existsb_exists; exists y; split; [exact Hin|]; apply kind_same; auto). congruence.
Qed.
Lemma replace_ext_kinds x r : map mint_ext_kind (replace_ext x r) = map mint_ext_kind r.
Proof.
  induction r as [|y r IH]; [reflexivity|]. cbn. destruct (mint_ext_same x y) eqn:E; cbn; [|now rewrite IH].
  apply kind_same in E. now rewrite E.
Qed.
Lemma replace_metadata_kinds t r : map mint_ext_kind (replace_metadata t r) = map mint_ext_kind r.
Proof. induction r as [|y r IH]; [reflexivity|]. destruct y; cbn; rewrite ?IH; reflexivity. Qed.
Lemma set_fee_withheld_kinds n r : map mint_ext_kind (set_fee_withheld n r) = map mint_ext_kind r.
Proof. induction r as [|y r IH]; [reflexivity|]. destruct y; cbn; rewrite ?IH; reflexivity. Qed.
Lemma set_fee_withheld_space n r : mint_space (set_fee_withheld n r) = mint_space r.
Proof.
  assert (map mint_ext_len (set_fee_withheld n r) = map mint_ext_len r) as E.
  { induction r as [|y r IH]; [reflexivity|]. destruct y; cbn; rewrite ?IH; reflexivity. }
  unfold mint_space. rewrite <- E. destruct r as [|y r]; [reflexivity|]. destruct y; reflexivity.
Qed.
Lemma no_metadata_fresh m t : ext_metadata m = None -> existsb (mint_ext_same (MxTokenMetadata t)) (m_exts m) = false.
Proof.
  unfold ext_metadata. induction (m_exts m) as [|y r IH]; [reflexivity|]. cbn. destruct y; intro E; try discriminate; apply IH; exact E.
Qed.
Lemma distinct_types_nodup x : distinct_types x = true -> NoDup x.
Proof.
  induction x as [|y r IH]; intro H; [constructor|]. cbn in H. apply andb_true_iff in H. destruct H as [H1 H2].
  constructor; [|auto]. intro Hin. apply ext_type_mem_In in Hin. unfold ext_type_mem in Hin. rewrite Hin in H1. discriminate.
Qed.
Lemma init_exts_distinct p m imm : distinct_mint_exts m -> NoDup (map acct_ext_type_of (init_account_exts p m imm)).
Proof.
  intro D. unfold init_account_exts. destruct (pk_eqb p spl_token_id); [constructor|].
  rewrite map_map. rewrite (map_ext _ id) by (intros []; reflexivity). rewrite map_id.
  pose proof (required_init_nodup _ D) as R. destruct imm; cbn [app].
  - constructor; [|apply NoDup_filter; exact R]. intro H. apply filter_In in H. destruct H as [_ H]. discriminate.
  - apply NoDup_filter. exact R.
Qed.
Lemma init_exts_spl m imm : init_account_exts spl_token_id m imm = [].
Proof. reflexivity. Qed.

Lemma change_data_ok e0 p ms l k d' o' :
  Inv e0 l -> token_program p -> no_tw_signer ms -> a_owner (l k) = p ->
  change p l (is_sig ms) k (a_data (l k)) d' o' ->
  (o' = p /\ data_ok p d') \/ (o' = system_id /\ d' = DEmpty).
Proof.
  intros I T N O X. assert (OK : data_ok p (a_data (l k))).
  { destruct (inv_acct _ _ I k) as (A & _). rewrite O in A. exact (A T). }
  assert (NS : forall a, is_tw_pda a = true -> ~ signed_for p l (is_sig ms) a).
  { intros a P. exact (unsigned_pda e0 l p ms a I N P). }
  assert (UN : forall m, unpack_uninit_mint (a_data (l k)) = Ok m -> m_init m = false /\ m_supply m = 0 /\ distinct_mint_exts m /\ (p = spl_token_id -> m_exts m = []) /\ exts_wf (m_exts m)).
  { intros m U. apply unpack_uninit_mint_inv in U. destruct U as (Hi & [(r & _ & _ & ->)|D]).
    - repeat split; constructor.
    - rewrite D in OK. destruct OK as (A1 & A2 & A3 & A4 & A5 & A6). auto. }
  destruct X; try (right; split; reflexivity); left; (split; [reflexivity|]).
  - apply UN in H. destruct H as (U1 & U2 & U3 & U4 & U5). unfold data_ok, mint_ok; cbn. rewrite U1, U2.
    repeat split; auto; try discriminate; try lia; try (unfold two64; lia).
    + unfold distinct_mint_exts. cbn. apply distinct_snoc; auto.
    + intros ->; discriminate.
    + apply exts_wf_snoc; [exact U5|]. now apply initializable_wf.
  - apply UN in H. destruct H as (U1 & U2 & U3 & U4 & U5). unfold data_ok, mint_ok; cbn.
    repeat split; auto; try discriminate; try (unfold two64; lia).
  - assert (NoDup (map acct_ext_type_of (init_account_exts p m imm))) as ND.
    { destruct H2 as [->|H2]; [constructor|]. apply init_exts_distinct.
      assert (T' : token_program (a_owner (l mnt))) by (rewrite H2; exact T).
      pose proof (inv_mint _ _ _ _ I T' H1) as (_ & _ & A & _). exact A. }
    unfold data_ok, tok_ok; cbn -[is_native_mint init_account_exts]. split; [exact ND|]. split; [intros ->; reflexivity|]. split.
    + destruct H3 as [(A & _ & ->)|(A & rs & -> & _)]; rewrite A; split; congruence.
    + intros _. split; [reflexivity|]. reflexivity.
  - exact Logic.I.
  - rewrite H in OK. destruct OK as (A1 & A2 & A3 & A4 & A5 & A6). unfold data_ok, mint_ok; cbn. repeat split; auto; [congruence|lia].
  - rewrite H in OK. destruct OK as (A1 & A2 & A3 & A4 & A5 & A6). unfold data_ok, mint_ok; cbn. repeat split; auto; congruence.
  - rewrite H in OK. destruct OK as (A1 & A2 & A3 & A4 & A5 & A6). unfold data_ok, mint_ok; cbn. repeat split; auto; congruence.
  - rewrite H in OK. destruct OK as (A1 & A2 & A3 & A4 & A5 & A6). unfold data_ok, mint_ok; cbn. repeat split; auto; congruence.
  - rewrite H in OK. destruct OK as (A1 & A2 & A3 & A4 & A5 & A6). unfold data_ok, mint_ok; cbn. repeat split; auto.
    + unfold distinct_mint_exts in *. cbn. rewrite replace_ext_kinds. exact A3.
    + intros ->; discriminate.
    + now apply exts_wf_replace.
  - rewrite H in OK. destruct OK as (A1 & A2 & A3 & A4 & A5 & A6). unfold data_ok, mint_ok; cbn. repeat split; auto.
    + unfold distinct_mint_exts in *. cbn. rewrite set_fee_withheld_kinds. exact A3.
    + intros ->; discriminate.
    + intros _. unfold tight in *. cbn. rewrite set_fee_withheld_space. auto.
    + now apply exts_wf_withheld.
  - rewrite H in OK. destruct OK as (A1 & A2 & A3 & A4 & A5 & A6). unfold data_ok, mint_ok; cbn. repeat split; auto.
    + unfold distinct_mint_exts in *. cbn [m_exts set_mexts]. apply distinct_snoc; [exact A3|]. now apply no_metadata_fresh.
    + intros ->; discriminate.
    + now apply exts_wf_snoc.
  - rewrite H in OK. destruct OK as (A1 & A2 & A3 & A4 & A5 & A6). unfold data_ok, mint_ok; cbn. repeat split; auto.
    + unfold distinct_mint_exts in *. cbn. rewrite replace_metadata_kinds. exact A3.
    + intros ->; discriminate.
    + now apply exts_wf_metadata.
  - clear H3. rename H4 into H3. rewrite H in OK. destruct OK as (A1 & A2 & A3 & A4). cbn. unfold tok_ok.
    assert (XT : map acct_ext_type_of (t_exts t') = map acct_ext_type_of (t_exts t) \/ p = t22_id /\ distinct_types (map acct_ext_type_of (t_exts t')) = true).
    { destruct H3; auto. left. congruence. }
    split; [|split; [|split]].
    + unfold distinct_acct_exts in *. destruct XT as [->|[_ XT]]; [exact A1|]. apply distinct_types_nodup; exact XT.
    + intros E. destruct XT as [XT|[-> _]]; [|discriminate]. rewrite (A2 E) in XT. now apply map_eq_nil in XT.
    + rewrite H0, H1. exact A3.
    + intro P. rewrite H1. destruct H3.
      * rewrite H3 in P. destruct (A4 P) as [B1 B2]. split; [destruct H5; congruence|]. rewrite H4. exact B2.
      * rewrite H5 in P. destruct (A4 P) as [B1 B2]. split; [destruct H7; congruence|]. rewrite H6. exact B2.
      * rewrite H4 in P. destruct (A4 P) as [B1 B2]. split; [destruct H6; congruence|]. rewrite H5. exact B2.
      * rewrite H4 in P. exfalso. exact (NS _ P H3).
      * auto.
      * rewrite H5 in P. destruct (A4 P) as [B1 B2]. split; [congruence|]. intro Hn. specialize (B2 Hn).
        destruct H4 as [H4|[_ ->]]; [congruence|]. exfalso. exact (NS _ P H3).
Qed.

Lemma softens_blank a a' : softens a a' -> (blank a <-> blank a').
Proof.
  intros [[D O]|(T & O & m & m' & D & D' & _)]; unfold blank.
  - rewrite D, O. tauto.
  - rewrite D, D'. split; intros [? _]; discriminate.
Qed.
Lemma softens_owner a a' : softens a a' -> a_owner a' = a_owner a.
Proof. intros [[D O]|(T & O & _)]; exact O. Qed.
Lemma softens_pda e0 k a a' : softens a a' -> pda_ok e0 k a -> pda_ok e0 k a'.
Proof.
  intros S P. destruct P as [B|[(u & p & T & E & O & m & D & Hi & Ha & Hx)|[(u & p & T & E & O & D)|(u & v & E & O & D)]]].
  - left. apply (softens_blank _ _ S). exact B.
  - right; left. exists u, p. split; [exact T|]. split; [exact E|]. split; [rewrite (softens_owner _ _ S); exact O|].
    destruct S as [[D2 O2]|(_ & O2 & n & n' & D1 & D2 & S)].
    + exists m. rewrite D2. auto.
    + exists n'. rewrite D in D1. inversion D1; subst n. destruct S as (S1 & S2 & S3 & S4 & S5 & S6).
      split; [exact D2|]. split; [congruence|]. split; [congruence|]. rewrite S4. exact Hx.
  - right; right; left. exists u, p. split; [exact T|]. split; [exact E|]. destruct S as [[D2 O2]|(_ & O2 & n & n' & D1 & D2 & S)]; [|congruence].
    split; congruence.
  - right; right; right. exists u, v. split; [exact E|]. destruct S as [[D2 O2]|(_ & O2 & n & n' & D1 & D2 & S)]; [|congruence].
    split; congruence.
Qed.

(** Token-2022's wrapped-SOL mint never changes. *)
Lemma native_unchanged e0 p ms l l' :
  Inv e0 l -> token_program p -> changes p ms l l' -> a_owner (l native_mint_2022_id) = t22_id -> same_do (l native_mint_2022_id) (l' native_mint_2022_id).
Proof.
  intros I T C O. destruct (C native_mint_2022_id) as [S|(Op & _ & X)]; [exact S|].
  destruct (inv_acct _ _ I native_mint_2022_id) as (_ & _ & A). specialize (A eq_refl O).
  rewrite A in X. unfold wrapped_sol_mint in X. unfold same_do. rewrite A, O. unfold wrapped_sol_mint.
  remember (a_data (l' native_mint_2022_id)) as d'. remember (a_owner (l' native_mint_2022_id)) as o'.
  rewrite O in Op. clear Heqd' Heqo'. destruct X; try discriminate; try (inversion H; subst; cbn in *; try discriminate; fail).
  - inversion H; subst m. cbn in H1. assert (n = 0) by lia. subst n. split; [reflexivity|]. congruence.
Qed.

Lemma sol_unchanged e0 p ms l l' :
  Inv e0 l -> token_program p -> changes p ms l l' -> same_do (l native_mint_id) (l' native_mint_id).
Proof.
  intros I T C. destruct (inv_sol _ _ I) as [O A]. destruct (C native_mint_id) as [S|(Op & _ & X)]; [exact S|].
  rewrite A in X. unfold wrapped_sol_mint in X. unfold same_do. rewrite A, O. unfold wrapped_sol_mint.
  remember (a_data (l' native_mint_id)) as d'. remember (a_owner (l' native_mint_id)) as o'.
  rewrite O in Op. clear Heqd' Heqo'. destruct X; try discriminate; try (inversion H; subst; cbn in *; try discriminate; fail).
  - inversion H; subst m. cbn in H1. assert (n = 0) by lia. subst n. split; [reflexivity|]. congruence.
Qed.
Lemma change_tok_mint p l sig k d t o' : change p l sig k d (DTok t) o' ->
  p = spl_token_id \/ a_owner (l (t_mint t)) = p \/ exists t1, d = DTok t1 /\ t_mint t = t_mint t1.
Proof.
  intro X. remember (DTok t) as d' eqn:E. destruct X; try discriminate E; inversion E; subst.
  - destruct H2; auto.
  - right; right. exists t0. auto.
Qed.
Lemma changes_inv e0 p ms l l' :
  Inv e0 l -> token_program p -> no_tw_signer ms -> changes p ms l l' -> conserves p l l' -> Inv e0 l'.
Proof.
  intros I T N C K.
  assert (CASE : forall k, same_do (l k) (l' k) \/
     (a_owner (l k) = p /\ (a_owner (l' k) = p /\ data_ok p (a_data (l' k)) \/ (a_owner (l' k) = system_id /\ a_data (l' k) = DEmpty)))).
  { intro k. destruct (C k) as [S|(O & _ & X)]; [left; exact S|right]. split; [exact O|]. exact (change_data_ok _ _ _ _ _ _ _ I T N O X). }
  assert (SOFT : forall k, is_tw_pda k = true -> softens (l k) (l' k)) by (intros k; exact (changes_soft _ _ _ _ _ k I T N C)).
  constructor.
  - intro k. split; [|split].
    + intro T'. destruct (CASE k) as [[D O]|(O & [[O' OK]|[O' _]])].
      * rewrite D, O in *. destruct (inv_acct _ _ I k) as (A & _). exact (A T').
      * rewrite O'. exact OK.
      * rewrite O' in T'. exfalso. exact (token_not_system _ T' eq_refl).
    + intro P. apply (softens_pda e0 k (l k)); [exact (SOFT k P)|]. exact (inv_pda _ _ _ I P).
    + intros -> O'. assert (O : a_owner (l native_mint_2022_id) = t22_id).
      { assert (t22_id <> system_id) by discriminate. destruct (CASE native_mint_2022_id) as [[D O]|(O & [[O2 OK]|[O2 _]])]; congruence. }
      destruct (native_unchanged _ _ _ _ _ I T C O) as [D _]. rewrite D.
      destruct (inv_acct _ _ I native_mint_2022_id) as (_ & _ & A). exact (A eq_refl O).
  - intros u q Tq. rewrite <- (softens_blank _ _ (SOFT _ (is_tw_pda_wrapped e0 u q))).
    rewrite <- (softens_blank _ _ (SOFT _ (is_tw_pda_backpointer e0 (wrapped_mint_of e0 u q)))). exact (inv_pair _ _ I u q Tq).
  - intros k t O' D' M. assert (a_owner (l native_mint_2022_id) = t22_id) as NO.
    { destruct (C k) as [[D O]|(O & _ & X)].
      - rewrite D in D'. rewrite O in O'. exact (inv_native _ _ I k t O' D' M).
      - rewrite D' in X. assert (p = t22_id) as Ep.
        { destruct (CASE k) as [[? ?]|(? & [[? ?]|[? ?]])]; try congruence. assert (t22_id <> system_id) by discriminate; congruence. }
        destruct (change_tok_mint _ _ _ _ _ _ _ X) as [H|[H|(t1 & D1 & M1)]].
        + rewrite Ep in H. discriminate.
        + congruence.
        + apply (inv_native _ _ I k t1); congruence. }
    destruct (native_unchanged _ _ _ _ _ I T C NO) as [_ O2]. congruence.
  - intros q v Tq Hn. apply K; auto; [exact (inv_mints_fine _ _ _ I T)|exact (inv_natives_fine _ _ _ I T)|exact (inv_cons _ _ I q v Tq Hn)].
  - destruct (sol_unchanged _ _ _ _ _ I T C) as [D O]. rewrite D, O. exact (inv_sol _ _ I).
Qed.

(** ** Escrows only grow *)
Lemma escrowed_inv e0 l u utp wtp : 0 < escrowed e0 l u utp wtp ->
  exists t, a_data (l (escrow_of e0 u utp wtp)) = DTok t /\ a_owner (l (escrow_of e0 u utp wtp)) = utp /\
    t_mint t = u /\ t_owner t = authority_of e0 (wrapped_mint_of e0 u wtp) /\ escrowed e0 l u utp wtp = t_amount t.
Proof.
  unfold escrowed. cbv zeta. destruct (a_data (l (escrow_of e0 u utp wtp))) as [r|d|m|t|m|m]; try lia.
  destruct (pk_eqb _ utp) eqn:E1; [|cbn; lia]. destruct (pk_eqb (t_mint t) u) eqn:E2; [|cbn; lia].
  destruct (pk_eqb (t_owner t) _) eqn:E3; [|cbn; lia]. intros _. apply pk_eqb_eq in E1, E2, E3. cbn. exists t. auto.
Qed.
Lemma escrowed_intro e0 l u utp wtp t :
  a_data (l (escrow_of e0 u utp wtp)) = DTok t -> a_owner (l (escrow_of e0 u utp wtp)) = utp ->
  t_mint t = u -> t_owner t = authority_of e0 (wrapped_mint_of e0 u wtp) -> escrowed e0 l u utp wtp = t_amount t.
Proof.
  intros D O M W. unfold escrowed. cbv zeta. rewrite D, O, M, W, !pk_eqb_refl. reflexivity.
Qed.
Lemma escrowed_same e0 l l' u utp wtp : same_do (l (escrow_of e0 u utp wtp)) (l' (escrow_of e0 u utp wtp)) -> escrowed e0 l' u utp wtp = escrowed e0 l u utp wtp.
Proof. intros [D O]. unfold escrowed. cbv zeta. rewrite D, O. reflexivity. Qed.

(** Tokens exist only of mints that exist. *)
Lemma held_mint e0 l p k t : Inv e0 l -> token_program p -> a_owner (l k) = p -> a_data (l k) = DTok t -> 0 < t_amount t ->
  is_native_mint p (t_mint t) = true \/ exists m, a_owner (l (t_mint t)) = p /\ a_data (l (t_mint t)) = DMint m /\ t_amount t <= m_supply m.
Proof.
  intros I T O D A. destruct (is_native_mint p (t_mint t)) eqn:E; [left; reflexivity|right].
  pose proof (inv_cons _ _ I p (t_mint t) T E [k]) as K. cbn [sumf fold_right] in K.
  unfold val at 1 in K. rewrite O, pk_eqb_refl, D in K. cbn [data_val] in K. rewrite pk_eqb_refl in K. unfold tok_val, room in K.
  assert (NoDup [k]) as ND by (repeat constructor; intros []). specialize (K ND).
  destruct (pk_eqb (a_owner (l (t_mint t))) p) eqn:Eo; [|lia]. apply pk_eqb_eq in Eo.
  unfold data_cap in K. destruct (a_data (l (t_mint t))) as [ | |m| | |]; try lia. rewrite pk_eqb_refl in K. exists m. repeat split; auto. lia.
Qed.
Lemma held_no_pd e0 l k t m : Inv e0 l -> a_owner (l k) = t22_id -> a_data (l k) = DTok t -> 0 < t_amount t ->
  no_permanent_delegate (t_mint t) l -> a_data (l (t_mint t)) = DMint m -> ext_permanent_delegate m = None.
Proof.
  intros I O D A NP Dm. destruct (held_mint e0 l t22_id k t I (or_intror eq_refl) O D A) as [E|(m' & O' & D' & Hs)].
  - unfold is_native_mint in E. apply pk_eqb_eq in E. cbn in E.
    pose proof (inv_native _ _ I k t O D E) as ON.
    destruct (inv_acct _ _ I native_mint_2022_id) as (_ & _ & B). specialize (B eq_refl ON). rewrite <- E in B. rewrite B in Dm. inversion Dm; subst. reflexivity.
  - destruct (m_init m) eqn:Hi.
    + apply NP. split; [exact O'|]. split; [exact Dm|exact Hi].
    + exfalso. assert (m' = m) by congruence. subst m'. assert (T' : token_program (a_owner (l (t_mint t)))) by (rewrite O'; right; reflexivity).
      pose proof (inv_mint _ _ _ _ I T' Dm) as (B & _). specialize (B Hi). lia.
Qed.

Lemma changes_escrow e0 p ms l l' u utp wtp :
  Inv e0 l -> token_program p -> no_tw_signer ms -> changes p ms l l' -> (p = t22_id -> utp = t22_id -> no_permanent_delegate u l) ->
  escrowed e0 l u utp wtp <= escrowed e0 l' u utp wtp.
Proof.
  intros I T N C NP. destruct (N.eq_0_gt_0_cases (escrowed e0 l u utp wtp)) as [->|G]; [lia|].
  destruct (escrowed_inv _ _ _ _ _ G) as (t & D & O & M & W & A).
  destruct (C (escrow_of e0 u utp wtp)) as [S|(Op & _ & X)]; [rewrite (escrowed_same _ _ _ _ _ _ S); lia|].
  assert (p = utp) by congruence. subst utp.
  assert (NS : ~ signed_for p l (is_sig ms) (t_owner t)).
  { rewrite W. exact (unsigned_pda e0 l p ms _ I N (is_tw_pda_authority e0 _)). }
  assert (P : is_tw_pda (t_owner t) = true) by (rewrite W; apply is_tw_pda_authority).
  assert (T' : token_program (a_owner (l (escrow_of e0 u p wtp)))) by (rewrite O; exact T).
  pose proof (inv_tok _ _ _ _ I T' D) as (_ & TX & _ & TD). specialize (TD P). destruct TD as [TD TC].
  assert (NOWN : ~ (t_owner t = system_id \/ t_owner t = incinerator_id)) by (intros [Q|Q]; rewrite Q in P; discriminate).
  remember (a_data (l' (escrow_of e0 u p wtp))) as d' eqn:Ed. remember (a_owner (l' (escrow_of e0 u p wtp))) as o' eqn:Eo.
  rewrite D in X.
  assert (Dt : exists t1, d' = DTok t1 /\ o' = p /\ t_mint t1 = t_mint t /\ t_owner t1 = t_owner t /\ t_amount t <= t_amount t1).
  { destruct X as [ | | | | | | | | | | | | |t0 t' E1 E2 E3 E4 _ X|t0 E1 E2 E3 _]; try discriminate; try match goal with H : unpack_uninit_mint _ = Ok _ |- _ => discriminate H end.
    - assert (t0 = t) by congruence. subst t0. exists t'. split; [reflexivity|]. split; [reflexivity|]. split; [exact E2|].
      destruct X; try (exfalso; contradiction).
      + auto.
      + exfalso. destruct H0 as [->|[Q|(m & Q1 & Q2 & Q3)]]; [contradiction|congruence|].
        destruct T as [->| ->].
        * unfold ext_permanent_delegate in Q2. rewrite (Q3 eq_refl) in Q2. discriminate.
        * assert (ext_permanent_delegate m = None); [|congruence].
          eapply (held_no_pd e0 l (escrow_of e0 u t22_id wtp) t m I O); [exact D|lia|rewrite M; exact (NP eq_refl eq_refl)|exact Q1].
      + split; [assumption|]. lia.
    - exfalso. assert (t0 = t) by congruence. subst t0. destruct E3 as [E3|E3]; [contradiction|].
      destruct (t_native t) as [r|] eqn:En; [rewrite TC in E3 by congruence; contradiction|]. specialize (E2 eq_refl). lia. }
  destruct Dt as (t1 & D1 & O1 & M1 & W1 & A1). rewrite (escrowed_intro e0 l' u p wtp t1); try congruence.
Qed.

(** ** Other programs *)
Lemma ruled_dec p : {ruled p} + {~ ruled p}.
Proof.
  unfold ruled. destruct (pk_dec p spl_token_id); [left; auto|]. destruct (pk_dec p t22_id); [left; auto|].
  destruct (pk_dec p tw_id); [left; auto|]. right. tauto.
Qed.
Lemma token_ruled p : token_program p -> ruled p.
Proof. intros [->| ->]; unfold ruled; auto. Qed.
Lemma conserved_le p v l l' : (forall k, val p v l' k <= val p v l k) -> room p v l v <= room p v l' v -> conserved p v l -> conserved p v l'.
Proof.
  intros V R C ks N. specialize (C ks N). assert (sumf (val p v l') ks <= sumf (val p v l) ks); [|lia].
  clear C N R. induction ks as [|k ks IH]; cbn [sumf fold_right] in *; [lia|]. specialize (V k). fold (sumf (val p v l) ks). fold (sumf (val p v l') ks). lia.
Qed.
Lemma sol_mint_ok : mint_ok t22_id wrapped_sol_mint.
Proof. unfold mint_ok, wrapped_sol_mint; cbn. repeat split; try discriminate; try constructor. Qed.

Definition good_step (e0 : env) (l l' : ledger) : Prop :=
  Inv e0 l' /\ (forall k, is_tw_pda k = true -> softens (l k) (l' k)) /\
  (forall u utp wtp, token_program utp -> escrowed e0 l u utp wtp <= escrowed e0 l' u utp wtp).
Lemma good_trans e0 l l1 l2 : good_step e0 l l1 -> good_step e0 l1 l2 -> good_step e0 l l2.
Proof.
  intros (I1 & S1 & E1) (I2 & S2 & E2). split; [exact I2|]. split.
  - intros k P. eapply softens_trans; eauto.
  - intros u utp wtp T. specialize (E1 u utp wtp T). specialize (E2 u utp wtp T). lia.
Qed.
Lemma good_refl e0 l : Inv e0 l -> good_step e0 l l.
Proof. intro I. split; [exact I|]. split; [intros; apply softens_refl|intros; lia]. Qed.

(** What is needed of a change of the world: all but the last clause of [world_change]. *)
Definition weak_world (l l' : ledger) : Prop :=
  forall k,
    (ruled (a_owner (l k)) ->
       a_data (l' k) = a_data (l k) /\ a_owner (l' k) = a_owner (l k) /\ a_lamports (l k) <= a_lamports (l' k)) /\
    (is_tw_pda k = true -> a_data (l' k) = a_data (l k) /\ a_owner (l' k) = a_owner (l k)) /\
    (~ ruled (a_owner (l k)) -> ruled (a_owner (l' k)) ->
       (exists n, a_data (l' k) = DRaw (zeros n)) \/
       (k = native_mint_2022_id /\ a_owner (l' k) = t22_id /\ a_data (l' k) = DMint wrapped_sol_mint)) /\
    (native_mint k ->
       a_data (l' k) = a_data (l k) /\ a_owner (l' k) = a_owner (l k) \/
       (k = native_mint_2022_id /\ a_owner (l' k) = t22_id /\ a_data (l' k) = DMint wrapped_sol_mint)).
Lemma world_weak l l' : world_change l l' -> weak_world l l'.
Proof. intros W k. destruct (W k) as (A & B & D & E & _). split; [exact A|split; [exact B|split; [exact D|exact E]]]. Qed.
Lemma weak_good e0 l l' : Inv e0 l -> weak_world l l' -> good_step e0 l l'.
Proof.
  intros I W.
  assert (RU : forall k, ruled (a_owner (l k)) -> same_do (l k) (l' k)).
  { intros k R. destruct (W k) as (A & _). destruct (A R) as (D & O & _). split; assumption. }
  assert (PD : forall k, is_tw_pda k = true -> same_do (l k) (l' k)).
  { intros k P. destruct (W k) as (_ & A & _). exact (A P). }
  assert (NEW : forall k, token_program (a_owner (l' k)) -> same_do (l k) (l' k) \/ (~ ruled (a_owner (l k)) /\
     ((exists n, a_data (l' k) = DRaw (zeros n)) \/ (k = native_mint_2022_id /\ a_owner (l' k) = t22_id /\ a_data (l' k) = DMint wrapped_sol_mint)))).
  { intros k T. destruct (ruled_dec (a_owner (l k))) as [R|R]; [left; exact (RU k R)|right]. split; [exact R|].
    destruct (W k) as (_ & _ & A & _). exact (A R (token_ruled _ T)). }
  split; [constructor|split].
  - intro k. split; [|split].
    + intro T. destruct (NEW k T) as [[D O]|(_ & [(n & D)|(-> & O & D)])].
      * rewrite D, O in *. destruct (inv_acct _ _ I k) as (A & _). exact (A T).
      * rewrite D. exact Logic.I.
      * rewrite D, O. exact sol_mint_ok.
    + intro P. destruct (PD k P) as [D O]. destruct (inv_pda _ _ _ I P) as [[B1 B2]|[(u & p & T & E & B1 & m & B2 & B)|[(u & p & T & E & B1 & B2)|(u & v & E & B1 & B2)]]].
      * left. split; congruence.
      * right; left. exists u, p. split; [exact T|]. split; [exact E|]. split; [congruence|]. exists m. split; [congruence|exact B].
      * right; right; left. exists u, p. split; [exact T|]. split; [exact E|]. split; congruence.
      * right; right; right. exists u, v. split; [exact E|]. split; congruence.
    + intros -> O. destruct (W native_mint_2022_id) as (_ & _ & _ & A). destruct (A (or_intror eq_refl)) as [[D O']|(_ & _ & D)]; [|exact D].
      rewrite D. rewrite O' in O. destruct (inv_acct _ _ I native_mint_2022_id) as (_ & _ & B). exact (B eq_refl O).
  - intros u p T. unfold blank. destruct (PD _ (is_tw_pda_wrapped e0 u p)) as [-> ->]. destruct (PD _ (is_tw_pda_backpointer e0 (wrapped_mint_of e0 u p))) as [-> ->].
    exact (inv_pair _ _ I u p T).
  - intros k t O D M. assert (T : token_program (a_owner (l' k))) by (rewrite O; right; reflexivity).
    destruct (NEW k T) as [[D1 O1]|(_ & [(n & D1)|(-> & _ & D1)])]; try congruence.
    assert (N : a_owner (l native_mint_2022_id) = t22_id) by (apply (inv_native _ _ I k t); congruence).
    assert (R : ruled (a_owner (l native_mint_2022_id))) by (rewrite N; right; left; reflexivity).
    destruct (RU _ R) as [_ O2]. congruence.
  - intros p v T N. apply (conserved_le p v l); [| |exact (inv_cons _ _ I p v T N)].
    + intro k. unfold val. destruct (pk_eqb (a_owner (l' k)) p) eqn:E; [|lia]. apply pk_eqb_eq in E.
      assert (T' : token_program (a_owner (l' k))) by (rewrite E; exact T).
      destruct (NEW k T') as [[D O]|(_ & [(n & D)|(-> & O & D)])].
      * rewrite <- O, E, pk_eqb_refl, D. lia.
      * rewrite D. cbn. lia.
      * rewrite D. assert (data_val v native_mint_2022_id (DMint wrapped_sol_mint) = 0) as ->; [|lia].
        unfold data_val. destruct (pk_eqb native_mint_2022_id v); reflexivity.
    + unfold room. destruct (pk_eqb (a_owner (l v)) p) eqn:E; [|lia]. apply pk_eqb_eq in E.
      assert (R : ruled (a_owner (l v))) by (rewrite E; apply token_ruled; exact T).
      destruct (RU _ R) as [D O]. rewrite O, E, pk_eqb_refl, D. lia.
  - destruct (inv_sol _ _ I) as [O D]. assert (R : ruled (a_owner (l native_mint_id))) by (rewrite O; left; reflexivity).
    destruct (RU _ R) as [D' O']. rewrite D', O'. split; assumption.
  - intros k P. left. exact (PD k P).
  - intros u utp wtp T. destruct (N.eq_0_gt_0_cases (escrowed e0 l u utp wtp)) as [->|G]; [lia|].
    destruct (escrowed_inv _ _ _ _ _ G) as (t & D & O & _).
    assert (R : ruled (a_owner (l (escrow_of e0 u utp wtp)))) by (rewrite O; apply token_ruled; exact T).
    rewrite (escrowed_same _ _ _ _ _ _ (RU _ R)). lia.
Qed.

Lemma unsigned_good e0 p ms l l' :
  Inv e0 l -> token_program p -> no_tw_signer ms -> changes p ms l l' -> conserves p l l' -> p = spl_token_id -> good_step e0 l l'.
Proof.
  intros I T N C K E. split; [exact (changes_inv _ _ _ _ _ I T N C K)|]. split; [intro k; exact (changes_soft _ _ _ _ _ k I T N C)|].
  intros u utp wtp _. apply (changes_escrow e0 p ms l l' u utp wtp I T N C). intro Q. rewrite E in Q. discriminate.
Qed.
Lemma world_good e0 l l' : Inv e0 l -> world_change l l' -> good_step e0 l l'.
Proof. intros I W. exact (weak_good _ _ _ I (world_weak _ _ W)). Qed.

(** ** Creation of an associated token account *)
Lemma ata_create_inv e p wallet mnt l l' :
  ata_create e p wallet mnt l = Ok l' ->
  let k := ata_of e wallet mnt p in
  exists m l1, a_owner (l k) = system_id /\ a_owner (l mnt) = p /\ unpack_mint p (a_data (l mnt)) = Ok m /\
    l1 = upd l k (mkAcc (a_lamports (l k)) (DRaw (zeros (tok_space (init_account_exts p m true)))) p) /\
    tok_init_account e p [meta_w k false; meta_r mnt false] k mnt wallet true l1 = Ok l'.
Proof.
  intros H k. unfold ata_create in H. fold k in H. cbv zeta in H. destruct (pk_eqb (a_owner (l k)) system_id) eqn:E1; [|discriminate H].
  cbn [guard bind] in H. destruct (pk_eqb (a_owner (l mnt)) p) eqn:E2; [|discriminate H]. cbn [guard bind] in H.
  apply bind_ok in H. destruct H as (m & U & H). apply pk_eqb_eq in E1, E2. eexists m, _. split; [exact E1|]. split; [exact E2|]. split; [exact U|].
  split; [reflexivity|exact H].
Qed.
Lemma init_account_elsewhere e p ms k mnt owner imm l l' k' :
  tok_init_account e p ms k mnt owner imm l = Ok l' -> k' <> k -> l' k' = l k'.
Proof.
  unfold tok_init_account. intros H N. apply bind_ok in H. destruct H as (m & _ & H).
  apply bind_ok in H; destruct H as ([] & _ & H). cbv zeta in H. apply bind_ok in H; destruct H as ([] & _ & H). apply bind_ok in H; destruct H as ([] & _ & H).
  apply set_data_inv in H. destruct H as (_ & _ & ->). apply upd_other. congruence.
Qed.
Lemma ata_good e0 e p wallet mnt l l' : Inv e0 l -> token_program p -> ata_create e p wallet mnt l = Ok l' -> good_step e0 l l'.
Proof.
  intros I T H. apply ata_create_inv in H. cbv zeta in H. destruct H as (m & l1 & O & Om & U & E & H).
  remember (ata_of e wallet mnt p) as k eqn:Ek.
  assert (NP : is_tw_pda k = false) by (rewrite Ek; reflexivity).
  assert (NN : ~ native_mint k) by (rewrite Ek; intros [Q|Q]; discriminate Q).
  assert (NR : ~ ruled (a_owner (l k))) by (rewrite O; intros [Q|[Q|Q]]; discriminate Q).
  assert (W : weak_world l l1).
  { intro k'. rewrite E. destruct (pk_dec k k') as [<-|Hne].
    - rewrite upd_same. cbn [a_owner a_data a_lamports]. split; [intro R; contradiction|]. split; [congruence|].
      split; [intros _ _; left; eexists; reflexivity|]. intro R; contradiction.
    - rewrite upd_other by exact Hne. split; [intros _; repeat split; lia|]. split; [intros _; auto|]. split; [intros A B; contradiction|]. intros _. left. auto. }
  pose proof (weak_good _ _ _ I W) as (I1 & S1 & E1).
  assert (N0 : no_tw_signer [meta_w k false; meta_r mnt false]).
  { intros k' (i & [<-|[<-|[]]] & _ & Q); discriminate Q. }
  pose proof (changes_init_account _ _ _ _ _ _ _ _ _ H) as C. pose proof (conserves_init_account _ _ _ _ _ _ _ _ _ H) as K.
  pose proof (changes_inv _ _ _ _ _ I1 T N0 C K) as I'.
  split; [exact I'|]. split.
  - intros k' P. eapply softens_trans; [exact (S1 k' P)|exact (changes_soft _ _ _ _ _ k' I1 T N0 C P)].
  - intros u utp wtp Tu. destruct (pk_dec (escrow_of e0 u utp wtp) k) as [Q|Q].
    + destruct (N.eq_0_gt_0_cases (escrowed e0 l u utp wtp)) as [->|G]; [lia|].
      destruct (escrowed_inv _ _ _ _ _ G) as (t & _ & O' & _). rewrite Q, O in O'. destruct Tu as [-> | ->]; discriminate O'.
    + specialize (E1 u utp wtp Tu). rewrite (escrowed_same e0 l1 l'); [exact E1|].
      rewrite (init_account_elsewhere _ _ _ _ _ _ _ _ _ _ H Q). split; reflexivity.
Qed.
Lemma foreign_good e0 l l' : Inv e0 l -> foreign_steps l l' -> good_step e0 l l'.
Proof.
  intros I F. induction F as [l|e cpi ms ix l l1 l2 N X F IH|e wallet mnt l l1 l2 X F IH|l l1 l2 W F IH].
  - apply good_refl; exact I.
  - assert (G : good_step e0 l l1).
    { apply tok_exec_step in X. destruct X as (l3 & C & K & H). assert (T : token_program spl_token_id) by (left; reflexivity).
      assert (l1 = l3).
      { destruct H as [H|(m & mnt & n & U & H)]; [exact H|]. unfold run_hook in H. destruct (ext_hook m) as [q|] eqn:Q; [|congruence].
        pose proof (ext_hook_t22 _ _ _ _ T U Q). discriminate. }
      subst l3. exact (unsigned_good _ _ _ _ _ I T N C K eq_refl). }
    eapply good_trans; [exact G|]. apply IH. destruct G as (G & _). exact G.
  - assert (T : token_program spl_token_id) by (left; reflexivity). pose proof (ata_good _ _ _ _ _ _ _ I T X) as G.
    eapply good_trans; [exact G|]. apply IH. destruct G as (G & _). exact G.
  - pose proof (world_good _ _ _ I W) as G. eapply good_trans; [exact G|]. apply IH. destruct G as (G & _). exact G.
Qed.
Lemma hook_good e0 e m ms n l l' : lawful e0 e -> Inv e0 l -> run_hook e m ms n l = Ok l' -> good_step e0 l l'.
Proof.
  intros [_ L] I H. unfold run_hook in H. destruct (ext_hook m) as [p|]; [|inversion H; subst; apply good_refl; exact I].
  destruct (e_hook e p ms n l) as [x|] eqn:E; [|discriminate]. cbn in H. destruct (balanced _ _ _); [|discriminate]. cbn in H. inversion H; subst.
  apply foreign_good; [exact I|]. exact (L _ _ _ _ _ E).
Qed.

(** ** A direct call of a token program *)
Lemma tok_exec_good e0 e p cpi ms ix l l' :
  lawful e0 e -> Inv e0 l -> token_program p -> no_tw_signer ms -> tok_exec e p cpi ms ix l = Ok l' ->
  Inv e0 l' /\ (forall k, is_tw_pda k = true -> softens (l k) (l' k)) /\
  (forall u utp wtp, token_program utp -> (p = t22_id -> utp = t22_id -> no_permanent_delegate u l) -> escrowed e0 l u utp wtp <= escrowed e0 l' u utp wtp).
Proof.
  intros L I T N X. apply tok_exec_step in X. destruct X as (l3 & C & K & H).
  pose proof (changes_inv _ _ _ _ _ I T N C K) as I3.
  assert (G : good_step e0 l3 l').
  { destruct H as [->|(m & mnt & n & _ & H)]; [apply good_refl; exact I3|exact (hook_good _ _ _ _ _ _ _ L I3 H)]. }
  destruct G as (I' & S & E). split; [exact I'|]. split.
  - intros k P. eapply softens_trans; [exact (changes_soft _ _ _ _ _ k I T N C P)|exact (S k P)].
  - intros u utp wtp Tu NP. specialize (E u utp wtp Tu). pose proof (changes_escrow e0 p ms l l3 u utp wtp I T N C NP). lia.
Qed.
