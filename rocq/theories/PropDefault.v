(** * PropDefault.v — C78: tokens frozen by default.  If a Token-2022 mint creates its accounts frozen, its escrows are created frozen too:
    nobody can wrap such a token, unwrap it, or close the escrow, before the freeze authority has agreed - whoever creates the escrow. *)
From Verif Require Import Base Codec State Pda TokenProg Cpi Ata Meta Processor Builders Tac Demo Demo2 PdaProofs TokProofs FrameProofs ProcProofs Spec SpecLemmas
  WrapProofs CreateProofs MapProofs SyncProofs SyncProofs2 CloseProofs MatchProofs InvTok InvCons HistorySpec InvState InvTw InvHist EscProofs EscLive HistProofs DemoHist
  PropWrap PropClose PropHistory PropCustody PropSurplus PropEscrow PropFreeze PropPause.

(** The state of new accounts, if the mint prescribes one. *)
Definition default_of (x : mint_ext) : option acct_state := match x with MxDefaultAccountState s => Some s | _ => None end.
Lemma rule_default : rule default_of (fun m _ => m_freeze m).
Proof.
  split; [intros x y v S E; destruct x; try discriminate E; destruct y; try discriminate S; discriminate|]. split; [intros m y v E; destruct y; try discriminate E; reflexivity|].
  split; reflexivity.
Qed.
Lemma default_ext m s : setting default_of m = Some s -> ext_default_state m = s.
Proof.
  unfold setting, ext_default_state. change (find_map default_of (m_exts m)) with (find_map (fun e => match e with MxDefaultAccountState s => Some s | _ => None end) (m_exts m)).
  intros ->. reflexivity.
Qed.
(** C78: only the freeze authority changes what state new accounts have. *)
Theorem C78_default_kept : forall e0 a l l' u m,
  reachable e0 l -> step e0 a l l' -> mint_account l u t22_id m ->
  (exists m', mint_account l' u t22_id m' /\
     (setting default_of m' = setting default_of m \/ exists f, m_freeze m = Some f /\ consented a l t22_id f)) \/
  (exists f, ext_close_authority m = Some f /\ m_supply m = 0 /\ consented a l t22_id f).
Proof.
  intros e0 a l l' u m R S M.
  destruct (step_setting _ _ rule_default e0 a l l' u m (reachable_inv _ _ R) S M) as [(m' & M' & U)|U]; [left|right; exact U].
  exists m'. split; [exact M'|]. destruct U as [U|(s & f & A & B & E)]; [left; exact U|right]. exists f. auto.
Qed.
Print Assumptions C78_default_kept.

(** C78: an escrow of such a token is born frozen. *)
Theorem C78_born_frozen : forall e l l' u wtp m,
  mint_account l u t22_id m -> setting default_of m = Some Frozen ->
  ata_create e t22_id (authority_of e (wrapped_mint_of e u wtp)) u l = Ok l' ->
  exists t, token_account l' (escrow_of e u t22_id wtp) t22_id t /\ t_state t = Frozen /\ t_mint t = u.
Proof.
  intros e l l' u wtp m (_ & D & _) E H. destruct (ata_created _ _ _ _ _ _ H) as (_ & m1 & t & Um & O & Dt & Mt & _ & _ & _ & _ & _ & _ & St & _).
  apply unpack_mint_inv in Um. destruct Um as (Dm & _). assert (m1 = m) by (clear - D Dm; congruence). subst m1. rewrite (default_ext _ _ E) in St.
  exists t. unfold token_account. change (escrow_of e u t22_id wtp) with (ata_of e (authority_of e (wrapped_mint_of e u wtp)) u t22_id).
  split; [split; [exact O|split; [exact Dt|clear - St; congruence]]|]. split; [exact St|exact Mt].
Qed.
Print Assumptions C78_born_frozen.

(** ** No entry without the freeze authority *)
Definition shut (l : ledger) (u k : pubkey) : Prop :=
  (exists m, mint_account l u t22_id m /\ setting default_of m = Some Frozen /\ ext_close_authority m = None) /\
  (InvState.blank (l k) \/ frozen_at l k t22_id).
Lemma blank_or_frozen l l' wallet u b :
  is_tw_pda wallet = true -> Esc l' -> types_kept l l' -> InvState.blank (l (ata_key wallet t22_id u b)) -> InvState.blank (l' (ata_key wallet t22_id u b)).
Proof.
  intros P E TK [B _]. destruct (E wallet u t22_id b P (or_intror eq_refl)) as [B'|(_ & t & D & _)]; [exact B'|exfalso].
  destruct (TK wallet u b t P D) as (t0 & D0 & _). rewrite D0 in B. discriminate B.
Qed.
Lemma step_shut e0 past a l l' u wtp :
  history e0 past l -> step e0 a l l' ->
  (forall m f, a_data (l u) = DMint m -> m_freeze m = Some f -> ~ consented a l t22_id f) ->
  shut l u (escrow_of e0 u t22_id wtp) -> shut l' u (escrow_of e0 u t22_id wtp).
Proof.
  intros H S NC [(m & M & E & Cl) K]. pose proof (history_inv _ _ _ H) as I. pose proof (history_esc _ _ _ H) as Es.
  assert (R : reachable e0 l) by (exists past; exact H).
  assert (Es' : Esc l') by (exact (history_esc _ _ _ (h_step _ _ _ _ _ H S))).
  assert (P : is_tw_pda (authority_of e0 (wrapped_mint_of e0 u wtp)) = true) by apply is_tw_pda_authority.
  pose proof (step_kept _ _ _ _ I Es S) as SK.
  assert (MK : mints_kept l l').
  { destruct SK as [[MK _]|(e & wallet & mnt & X)]; [exact MK|exact (ata_mints _ _ _ _ _ _ X)]. }
  split.
  - destruct (C78_default_kept e0 a l l' u m R S M) as [(m' & M' & U)|(f & Q & _)]; [|exfalso; clear - Q Cl; congruence].
    destruct (MK u t22_id m (or_intror eq_refl) M Cl) as (m2 & M2 & C2 & _).
    assert (m2 = m') by (destruct M2 as (_ & D2 & _), M' as (_ & D' & _); clear - D2 D'; congruence). subst m2.
    exists m'. split; [exact M'|]. split; [|exact C2]. destruct U as [U|(f & Q & Cf)]; [clear - U E; congruence|].
    exfalso. destruct M as (_ & D & _). exact (NC m f D Q Cf).
  - destruct K as [B|F].
    + destruct SK as [[_ TK]|(e & wallet & mnt & X)].
      * left. destruct (ata_key_of e0 (authority_of e0 (wrapped_mint_of e0 u wtp)) u t22_id) as [b Eb].
        change (escrow_of e0 u t22_id wtp) with (ata_of e0 (authority_of e0 (wrapped_mint_of e0 u wtp)) u t22_id) in B |- *. rewrite Eb in B |- *.
        exact (blank_or_frozen l l' _ u b P Es' TK B).
      * destruct (ata_created _ _ _ _ _ _ X) as (Lo & m1 & t & Um & O & Dt & Mt & _ & _ & _ & _ & _ & _ & St & _).
        remember (ata_of e wallet mnt t22_id) as k eqn:Ek. destruct (pk_dec (escrow_of e0 u t22_id wtp) k) as [Q|N]; [|left; rewrite (Lo _ N); exact B].
        right. rewrite Q. assert (Em : mnt = u).
        { change (escrow_of e0 u t22_id wtp) with (ata_of e0 (authority_of e0 (wrapped_mint_of e0 u wtp)) u t22_id) in Q.
          destruct (ata_key_of e0 (authority_of e0 (wrapped_mint_of e0 u wtp)) u t22_id) as [b1 E1]. destruct (ata_key_of e wallet mnt t22_id) as [b2 E2].
          rewrite E1 in Q. rewrite Ek, E2 in Q. revert Q. generalize (authority_of e0 (wrapped_mint_of e0 u wtp)). intros w0 Q. unfold ata_key in Q. injection Q as _ Q _. symmetry. exact Q. }
        apply unpack_mint_inv in Um. destruct Um as (Dm & _). destruct M as (_ & D & _). rewrite Em in Dm.
        assert (m1 = m) by (clear - D Dm; congruence). subst m1. rewrite (default_ext _ _ E) in St.
        exists t. split; [split; [exact O|split; [exact Dt|clear - St; congruence]]|exact St].
    + right. destruct F as (t & TA & St).
      destruct (C74_thaw_needs_authority e0 a l l' u t22_id wtp t R S (or_intror eq_refl) TA St (or_introl eq_refl)) as [F|(m1 & f & D1 & Q & Cf)]; [exact F|].
      exfalso. exact (NC m1 f D1 Q Cf).
Qed.
Lemma shut_refuses l u k : shut l u k ->
  (forall e accounts n r w a up wp s v ta z, n < two64 -> keys_are accounts [r; w; a; up; wp; s; v; k; ta] -> ~ succeeds e accounts (Wrap n) l z) /\
  (forall e accounts n r a v wp up s w ta z, n < two64 -> keys_are accounts [k; r; a; v; wp; up; s; w; ta] -> ~ succeeds e accounts (Unwrap n) l z) /\
  (forall e accounts d v w a p z, keys_are accounts [k; d; v; w; a; p] -> ~ succeeds e accounts CloseStuckEscrow l z).
Proof.
  intros [_ K]. split; [|split].
  - intros e accounts n r w a up wp s v ta z Hn Ka S. destruct K as [[B _]|(t & (_ & D & _) & St)].
    + destruct (wrap_inv _ _ _ _ _ _ _ _ _ _ _ _ _ _ Hn Ka S) as (_ & _ & _ & _ & _ & _ & et & um & ms & extra & l1 & msm & Ue & _).
      apply pod_unpack_tok_inv in Ue. destruct Ue as [De _]. rewrite De in B. discriminate B.
    + destruct (C74_wrap_unfrozen _ _ _ _ _ _ _ _ _ _ _ _ _ _ Hn Ka S) as (_ & U & _). exact (U t D St).
  - intros e accounts n r a v wp up s w ta z Hn Ka S. destruct K as [[B _]|(t & (_ & D & _) & St)].
    + destruct (unwrap_inv _ _ _ _ _ _ _ _ _ _ _ _ _ _ Hn Ka S) as (_ & _ & _ & _ & _ & _ & msk & msb & l1 & um & extra & ms & _ & _ & Hb & _ & _ & _ & Ht).
      apply transfer_checked_inv in Ht. destruct Ht as (s0 & m0 & fee & s1 & Us & _). apply unpack_tok_inv in Us. destruct Us as (Ds & _).
      apply burn_inv in Hb. destruct Hb as (s2 & m2 & s3 & Us & Um & _ & _ & _ & _ & _ & _ & _ & _ & Hne & _ & _ & ->).
      apply unpack_tok_inv in Us. destruct Us as (Ds2 & _). apply unpack_mint_inv in Um. destruct Um as (Dm & _).
      assert (N1 : k <> w) by (intros ->; rewrite Dm in B; discriminate B). assert (N2 : k <> s) by (intros ->; rewrite Ds2 in B; discriminate B).
      rewrite !upd_other in Ds by (clear - N1 N2; congruence). rewrite Ds in B. discriminate B.
    + destruct (C74_unwrap_unfrozen _ _ _ _ _ _ _ _ _ _ _ _ _ _ Hn Ka S) as (_ & U & _). exact (U t D St).
  - intros e accounts d v w a p z Ka S. destruct (C22_close _ _ _ _ _ _ _ _ _ _ Ka S) as (_ & _ & (mu' & te & _ & (_ & De & _) & _ & _ & Se & _) & _).
    destruct K as [[B _]|(t & (_ & D & _) & St)]; [rewrite De in B; discriminate B|]. assert (te = t) by (clear - De D; congruence). subst te. clear - Se St. congruence.
Qed.
(** C78: take a token frozen by default whose mint nobody can close, with no escrow yet.  Whatever anybody does - creating the escrow included -
    as long as whoever is the freeze authority does not consent, the escrow does not exist or is frozen, and nobody wraps. *)
Theorem C78_permission : forall e0 acts l l' u wtp m,
  reachable e0 l -> course e0 acts l l' ->
  mint_account l u t22_id m -> setting default_of m = Some Frozen -> ext_close_authority m = None ->
  let esc := escrow_of e0 u t22_id wtp in
  unallocated l esc -> never_thawed acts u t22_id ->
  (unallocated l' esc \/ exists t, token_account l' esc t22_id t /\ t_state t = Frozen) /\
  (forall e accounts n r w a up wp s v ta z, n < two64 -> keys_are accounts [r; w; a; up; wp; s; v; esc; ta] -> ~ succeeds e accounts (Wrap n) l' z) /\
  (forall e accounts n r a v wp up s w ta z, n < two64 -> keys_are accounts [esc; r; a; v; wp; up; s; w; ta] -> ~ succeeds e accounts (Unwrap n) l' z) /\
  (forall e accounts d v w a p z, keys_are accounts [esc; d; v; w; a; p] -> ~ succeeds e accounts CloseStuckEscrow l' z).
Proof.
  intros e0 acts l l' u wtp m R C M E Cl esc B NT.
  assert (K : shut l' u esc).
  { assert (K0 : shut l u esc) by (split; [exists m; auto|left; exact B]). clear m M E Cl B. destruct R as [past H]. revert past H NT K0.
    induction C as [l|a l l1 acts l' S C IH]; intros past H NT K0; [exact K0|].
    apply (IH _ (h_step _ _ _ _ _ H S)); [intros b x m f Hb; apply (NT b x m f); right; exact Hb|].
    apply (step_shut e0 past a l l1 u wtp H S); [|exact K0]. intros m f D Q. exact (NT a l m f (or_introl eq_refl) D Q). }
  split; [|exact (shut_refuses l' u esc K)]. destruct K as [_ [K|K]]; [left; exact K|right; exact K].
Qed.
Print Assumptions C78_permission.

(** ** The hypotheses are met *)
Definition kyc : mint_ext := MxDefaultAccountState Frozen.
Definition kyc_setup : list cmd :=
  [ CFund d_alice 5000; CFund (d_w spl_token_id) 4000; CFund (d_b spl_token_id) 4000;
    CAlloc d_u (mint_space [kyc]) 9000 t22_id;
    CTok t22_id [meta_w d_u false] (TiInitExt kyc);
    CTok t22_id [meta_w d_u false] (TiInitializeMint2 6 d_mintauth (Some d_freeze));
    CTw x_create; CFund (d_esc t22_id spl_token_id) 5000 ].
Definition thaw (k : pubkey) : cmd := CTok t22_id [meta_w k false; meta_r d_u false; meta_r d_freeze true] (TiFreeze false).
Definition kyc_story : list cmd := kyc_setup ++
  [ CAta t22_id (d_a spl_token_id) d_u; CAlloc d_alice_u 165 5000 t22_id; CAlloc d_alice_w 165 5000 spl_token_id;
    CTok t22_id [meta_w d_alice_u false; meta_r d_u false] (TiInitializeAccount d_alice false);
    CTok spl_token_id [meta_w d_alice_w false; meta_r (d_w spl_token_id) false] (TiInitializeAccount d_alice false);
    thaw d_alice_u;
    CTok t22_id [meta_w d_u false; meta_w d_alice_u false; meta_r d_mintauth true] (TiMintTo 1000) ].
(** Alice is thawed and has tokens, but cannot wrap them; once the freeze authority has thawed the escrow as well, she can. *)
Example C78_story : playable kyc_story = true /\ playable (kyc_story ++ [CTw (x_wrap 40)]) = false /\
  playable (kyc_story ++ [thaw (d_esc t22_id spl_token_id); CTw (x_wrap 40)]) = true.
Proof. split; [vm_compute; reflexivity|]. split; [vm_compute; reflexivity|vm_compute; reflexivity]. Qed.
Example C78_example : exists acts l l' m,
  reachable demo_env l /\ course demo_env acts l l' /\ acts <> [] /\ mint_account l d_u t22_id m /\ setting default_of m = Some Frozen /\ ext_close_authority m = None /\
  unallocated l (d_esc t22_id spl_token_id) /\ never_thawed acts d_u t22_id /\ (exists t, token_account l' (d_esc t22_id spl_token_id) t22_id t /\ t_state t = Frozen).
Proof.
  destruct (last_step kyc_setup (CAta t22_id (d_a spl_token_id) d_u)) as [R _]; [vm_compute; reflexivity|].
  destruct (ata_create demo_env t22_id (d_a spl_token_id) d_u (now_of kyc_setup)) as [l'|err] eqn:E1.
  2: { exfalso. assert (K : match ata_create demo_env t22_id (d_a spl_token_id) d_u (now_of kyc_setup) with Ok _ => true | Err _ => false end = true) by (vm_compute; reflexivity).
       rewrite E1 in K. discriminate K. }
  set (m := some_mint (a_data (now_of kyc_setup d_u))).
  assert (M : mint_account (now_of kyc_setup) d_u t22_id m) by (unfold mint_account, mint_data; split; [vm_compute; reflexivity|]; split; [vm_compute; reflexivity|vm_compute; reflexivity]).
  assert (E : setting default_of m = Some Frozen) by (vm_compute; reflexivity).
  exists [(AAssociated demo_env t22_id (d_a spl_token_id) d_u, now_of kyc_setup)], (now_of kyc_setup), l', m.
  split; [exact R|]. split; [eapply co_step; [apply st_associated; [exact demo_lawful|right; reflexivity|exact E1]|]; apply co_end|]. split; [discriminate|].
  split; [exact M|]. split; [exact E|]. split; [vm_compute; reflexivity|]. split; [split; [vm_compute; reflexivity|vm_compute; reflexivity]|].
  split.
  - intros a x m0 f [Q|[]] _ _. apply pair_equal_spec in Q. destruct Q as [<- _]. intro X. exact X.
  - destruct (C78_born_frozen demo_env (now_of kyc_setup) l' d_u spl_token_id m M E E1) as (t & TA & St & _). exists t. split; [exact TA|exact St].
Qed.
