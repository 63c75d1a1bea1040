(** * PropFreeze.v — C74: freezing.  Frozen accounts stop Wrap and Unwrap; a frozen escrow stays frozen, and stops everybody, until the
    freeze authority of the unwrapped mint itself acts; if there is none any more, for ever. *)
From Verif Require Import Base Codec State Pda TokenProg Cpi Ata Meta Processor Builders Tac Demo Demo2 PdaProofs TokProofs FrameProofs ProcProofs Spec SpecLemmas
  WrapProofs CreateProofs MapProofs SyncProofs SyncProofs2 CloseProofs MatchProofs InvTok InvCons HistorySpec InvState InvTw InvHist EscProofs EscLive HistProofs DemoHist PropClose PropHistory PropCustody PropSurplus.

(** Account [k] is not a frozen token account. *)
Definition unfrozen (l : ledger) (k : pubkey) : Prop := forall t, a_data (l k) = DTok t -> t_state t <> Frozen.

Lemma transfer_unfrozen e prog cpi ms src mnt dst auth signers amount dec expfee l l' :
  tok_transfer_checked e prog cpi ms src mnt dst auth signers amount dec expfee l = Ok l' -> unfrozen l src /\ unfrozen l dst.
Proof.
  intro H. apply transfer_checked_inv in H.
  destruct H as (s & m & fee & s1 & Us & Fs & _ & _ & _ & _ & _ & _ & _ & _ & _ & _ & X).
  apply unpack_tok_inv in Us. destruct Us as (Ds & _).
  assert (A : unfrozen l src) by (intros t D; assert (t = s) by congruence; subst t; exact Fs).
  split; [exact A|]. destruct X as [[Q _]|(_ & d & dx & l3 & Ud & Fd & _)]; [subst dst; exact A|].
  apply unpack_tok_inv in Ud. destruct Ud as (Dd & _). intros t D. assert (t = d) by congruence. subst t. exact Fd.
Qed.
Lemma burn_unfrozen prog cpi ms src mnt auth signers amount l l' k :
  tok_burn prog cpi ms src mnt auth signers amount l = Ok l' -> unfrozen l src /\ (unfrozen l' k -> unfrozen l k).
Proof.
  intro H. apply burn_inv in H. destruct H as (s & m & s1 & Us & Um & Fs & _ & _ & _ & Au & _ & _ & _ & Hne & _ & _ & ->).
  apply unpack_tok_inv in Us. destruct Us as (Ds & _). apply unpack_mint_inv in Um. destruct Um as (Dm & _).
  assert (A : unfrozen l src) by (intros t D; assert (t = s) by congruence; subst t; exact Fs).
  split; [exact A|]. intros U t D. destruct (pk_dec src k) as [<-|N]; [exact (A t D)|].
  apply (U t). rewrite upd_other by (intros ->; congruence). rewrite upd_other by exact N. exact D.
Qed.

(** ** C74: a Wrap or Unwrap that succeeds found none of its accounts frozen *)
Theorem C74_wrap_unfrozen : forall e accounts amount l l' r w a up wp s u esc ta,
  amount < two64 -> keys_are accounts [r; w; a; up; wp; s; u; esc; ta] -> succeeds e accounts (Wrap amount) l l' ->
  unfrozen l s /\ unfrozen l esc /\ unfrozen l' r.
Proof.
  intros e accounts amount l l' r w a up wp s u esc ta Hn K S.
  destruct (wrap_inv _ _ _ _ _ _ _ _ _ _ _ _ _ _ Hn K S) as (_ & _ & _ & _ & _ & _ & et & um & ms & extra & l1 & msm & _ & _ & _ & _ & _ & _ & Ht & _ & _ & Hm).
  destruct (transfer_unfrozen _ _ _ _ _ _ _ _ _ _ _ _ _ _ Ht) as [A B]. split; [exact A|]. split; [exact B|].
  apply mint_to_inv in Hm. destruct Hm as (d & m & Ud & Fd & _ & _ & Um & _ & _ & _ & _ & _ & _ & Hne & _ & _ & ->).
  intros t D. rewrite upd_other in D by exact Hne. rewrite upd_same in D. cbn in D. injection D as <-. exact Fd.
Qed.
Print Assumptions C74_wrap_unfrozen.
Theorem C74_unwrap_unfrozen : forall e accounts amount l l' esc r a u wp up s w ta,
  amount < two64 -> keys_are accounts [esc; r; a; u; wp; up; s; w; ta] -> succeeds e accounts (Unwrap amount) l l' ->
  unfrozen l s /\ unfrozen l esc /\ unfrozen l r.
Proof.
  intros e accounts amount l l' esc r a u wp up s w ta Hn K S.
  destruct (unwrap_inv _ _ _ _ _ _ _ _ _ _ _ _ _ _ Hn K S) as (_ & _ & _ & _ & _ & _ & msk & msb & l1 & um & extra & ms & _ & _ & Hb & _ & _ & _ & Ht).
  destruct (transfer_unfrozen _ _ _ _ _ _ _ _ _ _ _ _ _ _ Ht) as [A B].
  destruct (burn_unfrozen _ _ _ _ _ _ _ _ _ _ esc Hb) as [C D]. destruct (burn_unfrozen _ _ _ _ _ _ _ _ _ _ r Hb) as [_ E].
  split; [exact C|]. split; [exact (D A)|exact (E B)].
Qed.
Print Assumptions C74_unwrap_unfrozen.

(** ** A frozen escrow, step by step *)
(** Still a frozen token account of [q], or the freeze authority of [u] agreed to what happened. *)
Definition frozen_at (l : ledger) (k q : pubkey) : Prop := exists t, token_account l k q t /\ t_state t = Frozen.
Definition agreed (C : pubkey -> Prop) (l : ledger) (u : pubkey) : Prop := exists m f, a_data (l u) = DMint m /\ m_freeze m = Some f /\ C f.

Lemma frozen_same l l' k q : same_do (l k) (l' k) -> frozen_at l k q -> frozen_at l' k q.
Proof. intros [D O] (t & (O1 & D1 & S1) & F). exists t. split; [split; [congruence|split; [congruence|exact S1]]|exact F]. Qed.
Lemma frozen_calm l l' k q : calm_at k l l' -> frozen_at l k q -> frozen_at l' k q.
Proof.
  intros [S|(t & t' & D & D' & O & _ & _ & _ & _ & _ & _ & St & _)] F; [exact (frozen_same _ _ _ _ S F)|].
  destruct F as (t0 & (O0 & D0 & S0) & F0). assert (t0 = t) by congruence. subst t0. exists t'. split; [split; [congruence|split; [exact D'|congruence]]|congruence].
Qed.
Lemma changes_frozen e0 p ms l l' wallet u q k :
  Inv e0 l -> token_program p -> token_program q -> no_tw_signer ms -> changes p ms l l' -> is_tw_pda wallet = true ->
  settled wallet u q (l k) -> frozen_at l k q -> frozen_at l' k q \/ agreed (signed_for q l (is_sig ms)) l u.
Proof.
  intros I Tp Tq N C P E F. pose proof F as (t & (O & D & S) & St).
  destruct (C k) as [Sm|(Op & _ & X)]; [left; exact (frozen_same _ _ _ _ Sm F)|].
  assert (Eq : p = q) by congruence. rewrite <- Eq in *. clear Eq q. destruct E as [[B _]|(_ & t1 & D1 & G)]; [congruence|]. assert (t1 = t) by congruence. subst t1.
  pose proof G as (G1 & G2 & G3 & G4 & _). rewrite D in X.
  assert (NS : ~ signed_for p l (is_sig ms) (t_owner t)) by (rewrite G2; exact (unsigned_pda e0 l p ms _ I N P)).
  assert (NOWN : ~ (t_owner t = system_id \/ t_owner t = incinerator_id)) by (rewrite G2; intros [Q|Q]; rewrite Q in P; discriminate).
  remember (a_data (l' k)) as d' eqn:Ed. remember (a_owner (l' k)) as o' eqn:Eo.
  destruct X as [ | | | | | | | | | | | | |t0 t' E1 E2 E3 E4 [Sk _] X|t0 E1 E2 E3 _]; try discriminate; try match goal with H : unpack_uninit_mint _ = Ok _ |- _ => discriminate H end.
  - assert (t0 = t) by congruence. subst t0. destruct Sk as [Sk|(_ & m & f & Q1 & Q2 & Q3)].
    + left. exists t'. split; [split; [symmetry; exact Eo|split; [symmetry; exact Ed|congruence]]|congruence].
    + right. exists m, f. rewrite <- G1. auto.
  - exfalso. assert (t0 = t) by congruence. subst t0. destruct E3 as [E3|E3]; [contradiction|]. rewrite G4 in E3. contradiction.
Qed.
Lemma agreed_mono (C D : pubkey -> Prop) l u : (forall who, C who -> D who) -> agreed C l u -> agreed D l u.
Proof. intros M (m & f & A & B & E). exists m, f. auto. Qed.
Lemma frozen_hook e0 e m ms n l l' k q : lawful e0 e -> spared e k q -> run_hook e m ms n l = Ok l' -> frozen_at l k q -> frozen_at l' k q.
Proof. intros L Sp H F. apply (frozen_same l); [|exact F]. destruct F as (t & (O & _) & _). exact (hook_same _ _ _ _ _ _ _ _ _ L H Sp O). Qed.
Lemma transfer_frozen e0 e p cpi ms src mnt dst auth signers amount dec expf l l' k q :
  lawful e0 e -> spared e k q -> tok_transfer_checked e p cpi ms src mnt dst auth signers amount dec expf l = Ok l' -> frozen_at l k q -> frozen_at l' k q.
Proof.
  intros L Sp H F. pose proof F as (t & (O & D & _) & St). apply (frozen_calm l); [|exact F].
  apply (transfer_calm e0 e p cpi ms src mnt dst auth signers amount dec expf l l' q k t L Sp O D); [|exact H].
  destruct (transfer_unfrozen _ _ _ _ _ _ _ _ _ _ _ _ _ _ H) as [A _]. intros ->. exact (A t D St).
Qed.
Lemma step_frozen e0 a l l' wallet u q k :
  Inv e0 l -> step e0 a l l' -> token_program q -> (q = t22_id \/ hooks_spare a k) -> is_tw_pda wallet = true ->
  settled wallet u q (l k) -> frozen_at l k q -> frozen_at l' k q \/ agreed (consented a l q) l u.
Proof.
  intros I S T Sp P E F. pose proof F as (t & (O & D & _) & St). assert (T' : token_program (a_owner (l k))) by (rewrite O; exact T).
  destruct S as [e accounts input l l' L NS R|e p cpi accounts ix l l' L Tp NS X|e p w mnt l l' L Tp X|l l' W]; cbn [consented hooks_spare] in *.
  - unfold runs, process_instruction in R. apply bind_ok in R. destruct R as (i & Ei & H).
    assert (CP : c_prog (mkCtx tw_id accounts) = tw_id) by reflexivity.
    change (no_tw_signer (c_infos (mkCtx tw_id accounts))) in NS.
    change accounts with (c_infos (mkCtx tw_id accounts)). remember (mkCtx tw_id accounts) as c eqn:Ec. clear Ec accounts Ei.
    destruct i; cbn [process_instr map_instr] in H.
    + left. exact (frozen_same _ _ _ _ (create_custody _ _ _ _ _ _ _ _ CP D T' H eq_refl) F).
    + left. destruct (map i_key (c_infos c)) as [|r [|w [|a [|up [|wp [|s [|u' [|esc [|ta rest]]]]]]]]] eqn:Ek;
        try (unfold process_wrap in H; inv_ok; destruct (c_infos c) as [|? [|? [|? [|? [|? [|? [|? [|? [|? ?]]]]]]]]]; discriminate).
      destruct (process_wrap_inv _ _ _ _ _ _ _ _ _ _ _ _ _ _ _ Ek CP H)
        as (_ & _ & _ & _ & _ & _ & et & um & ms & extra & l1 & msm & _ & _ & _ & _ & _ & _ & Ht & _ & _ & Hm).
      pose proof (transfer_frozen _ _ _ _ _ _ _ _ _ _ _ _ _ _ _ _ _ L Sp Ht F) as F1. pose proof F1 as (t1 & (_ & D1 & _) & _).
      exact (frozen_calm _ _ _ _ (mint_to_calm _ _ _ _ _ _ _ _ _ _ _ D1 Hm) F1).
    + destruct (map i_key (c_infos c)) as [|esc [|r [|a [|u' [|wp [|up [|s [|w [|ta rest]]]]]]]]] eqn:Ek;
        try (unfold process_unwrap in H; inv_ok; destruct (c_infos c) as [|? [|? [|? [|? [|? [|? [|? [|? [|? ?]]]]]]]]]; discriminate).
      destruct (process_unwrap_inv _ _ _ _ _ _ _ _ _ _ _ _ _ _ _ Ek CP H)
        as (_ & _ & Tw & _ & _ & _ & msk & msb & l1 & um & extra & ms & _ & Cp & Hb & _ & _ & _ & Ht).
      destruct (changes_frozen _ _ _ _ _ _ _ _ _ I Tw T (plain_unsigned _ _ NS Cp) (changes_burn _ _ _ _ _ _ _ _ _ _ Hb) P E F) as [F1|A].
      * left. exact (transfer_frozen _ _ _ _ _ _ _ _ _ _ _ _ _ _ _ _ _ L Sp Ht F1).
      * right. revert A. apply agreed_mono. intro who. exact (plain_consent _ _ _ _ _ Cp).
    + left. destruct (map i_key (c_infos c)) as [|esc [|d [|u' [|w [|a [|p rest]]]]]] eqn:Ek;
        try (unfold process_close_stuck_escrow in H; destruct (c_infos c) as [|? [|? [|? [|? [|? [|? ?]]]]]]; discriminate).
      destruct (process_close_inv _ _ _ _ _ _ _ _ _ _ _ Ek CP H) as (Oe & _ & _ & _ & He & et & m1 & msc & Ue & _ & Za & Se & _ & _ & _ & _ & _ & Ht).
      apply pod_unpack_tok_inv in Ue. destruct Ue as [De _].
      destruct (tok_close_tok_inv _ _ _ _ _ _ _ _ _ _ De Ht) as (Ned & _ & _ & _ & _ & _ & _ & Le & Ld & Lo).
      apply (frozen_same l); [|exact F]. assert (Nk : k <> esc) by (intros ->; congruence).
      destruct (pk_dec k d) as [->|N2]; [rewrite Ld|rewrite Lo by assumption]; split; reflexivity.
    + left. exact (frozen_same _ _ _ _ (sync_t22_custody _ _ _ _ _ _ CP D H) F).
    + left. exact (frozen_same _ _ _ _ (sync_spl_custody _ _ _ _ _ _ CP D T' H) F).
    + left. exact (frozen_same _ _ _ _ (set_pointer_custody _ _ _ _ _ _ _ CP D T' H) F).
  - apply tok_exec_changes in X. destruct X as (l3 & C & H).
    destruct (changes_frozen _ _ _ _ _ _ _ _ _ I Tp T NS C P E F) as [F1|A].
    + left. destruct H as [->|(m & mnt & n & _ & _ & H)]; [exact F1|exact (frozen_hook _ _ _ _ _ _ _ _ _ L Sp H F1)].
    + right. revert A. apply agreed_mono. intros who Q. eapply signed_for_signed_by; [|exact Q]; auto.
  - left. apply (frozen_same l); [|exact F]. destruct (ata_created _ _ _ _ _ _ X) as (Lo & _). rewrite Lo; [split; reflexivity|].
    intros ->. apply ata_create_inv in X. cbv zeta in X. destruct X as (m & l3 & O' & _). rewrite O' in T'. destruct T'; discriminate.
  - left. apply (frozen_same l); [|exact F]. destruct (W k) as (A & _). destruct A as (A1 & A2 & _); [destruct T' as [Q|Q]; rewrite Q; unfold ruled; auto|].
    split; assumption.
Qed.
(** C74: the escrow, once frozen, is thawed (or closed, or anything else) only in an action the freeze authority of the unwrapped mint
    consented to. *)
Theorem C74_thaw_needs_authority : forall e0 a l l' u utp wtp t,
  reachable e0 l -> step e0 a l l' -> spl_or_t22 utp ->
  let esc := escrow_of e0 u utp wtp in
  token_account l esc utp t -> t_state t = Frozen -> (utp = t22_id \/ hooks_spare a esc) ->
  (exists t', token_account l' esc utp t' /\ t_state t' = Frozen) \/
  (exists m f, a_data (l u) = DMint m /\ m_freeze m = Some f /\ consented a l utp f).
Proof.
  intros e0 a l l' u utp wtp t R S T esc TA St Sp.
  pose proof (esc_settled e0 e0 l u utp wtp R T) as E. fold esc in E.
  apply (step_frozen e0 a l l' (authority_of e0 (wrapped_mint_of e0 u wtp)) u utp esc (reachable_inv _ _ R) S T Sp); [apply is_tw_pda_authority|exact E|].
  exists t. split; assumption.
Qed.
Print Assumptions C74_thaw_needs_authority.

(** Whoever is the freeze authority of mint [u] (of program [p]) at the time consents to none of the actions. *)
Definition never_thawed (acts : list (action * ledger)) (u p : pubkey) : Prop :=
  forall a x m f, In (a, x) acts -> a_data (x u) = DMint m -> m_freeze m = Some f -> ~ consented a x p f.
(** C74: whoever does whatever for however long: while the freeze authority does not act, the frozen escrow stays frozen, and nobody
    wraps into it, unwraps from it or closes it. *)
Theorem C74_hostage : forall e0 acts l l' u utp wtp t,
  reachable e0 l -> course e0 acts l l' -> spl_or_t22 utp ->
  let esc := escrow_of e0 u utp wtp in
  token_account l esc utp t -> t_state t = Frozen ->
  (utp = t22_id \/ forall a x, In (a, x) acts -> hooks_spare a esc) ->
  never_thawed acts u utp ->
  (exists t', token_account l' esc utp t' /\ t_state t' = Frozen) /\
  (forall e accounts n r w a up wp s v ta z, n < two64 -> keys_are accounts [r; w; a; up; wp; s; v; esc; ta] -> ~ succeeds e accounts (Wrap n) l' z) /\
  (forall e accounts n r a v wp up s w ta z, n < two64 -> keys_are accounts [esc; r; a; v; wp; up; s; w; ta] -> ~ succeeds e accounts (Unwrap n) l' z) /\
  (forall e accounts d v w a p z, keys_are accounts [esc; d; v; w; a; p] -> ~ succeeds e accounts CloseStuckEscrow l' z).
Proof.
  intros e0 acts l l' u utp wtp t R C T esc TA St Sp NT.
  assert (F : exists t', token_account l' esc utp t' /\ t_state t' = Frozen).
  { revert t R TA St Sp NT. induction C as [l|a l l1 acts l' S C IH]; intros t R TA St Sp NT; [exists t; split; assumption|].
    assert (R1 : reachable e0 l1) by (destruct R as [past H]; exists (l :: past); exact (h_step _ _ _ _ _ H S)).
    assert (Sp0 : utp = t22_id \/ hooks_spare a esc) by (destruct Sp as [Sp|Sp]; [left; exact Sp|right; apply (Sp a l); left; reflexivity]).
    destruct (C74_thaw_needs_authority e0 a l l1 u utp wtp t R S T TA St Sp0) as [(t1 & TA1 & St1)|(m & f & Dm & Ff & Cf)].
    - apply (IH t1 R1 TA1 St1).
      + destruct Sp as [Sp|Sp]; [left; exact Sp|right; intros b x Hb; apply (Sp b x); right; exact Hb].
      + intros b x m f Hb. apply (NT b x m f). right. exact Hb.
    - exfalso. apply (NT a l m f); [left; reflexivity|exact Dm|exact Ff|exact Cf]. }
  split; [exact F|]. destruct F as (t' & (O' & D' & _) & St'). split; [|split].
  - intros e accounts n r w a up wp s v ta z Hn K S. destruct (C74_wrap_unfrozen _ _ _ _ _ _ _ _ _ _ _ _ _ _ Hn K S) as (_ & U & _). exact (U t' D' St').
  - intros e accounts n r a v wp up s w ta z Hn K S. destruct (C74_unwrap_unfrozen _ _ _ _ _ _ _ _ _ _ _ _ _ _ Hn K S) as (_ & U & _). exact (U t' D' St').
  - intros e accounts d v w a p z K S.
    destruct (C22_close _ _ _ _ _ _ _ _ _ _ K S) as (_ & _ & (mu & te & _ & (_ & De & _) & _ & _ & Se & _) & _).
    assert (te = t') by (clear - De D'; congruence). subst te. clear - Se St'. congruence.
Qed.
Print Assumptions C74_hostage.

(** ** A mint nobody can freeze with any more, and nobody can close *)
Definition unfreezable (q : pubkey) (a : account) : Prop :=
  a_owner a = q /\ exists m, a_data a = DMint m /\ m_init m = true /\ m_freeze m = None /\ (q = t22_id -> ext_close_authority m = None).
Lemma unfreezable_same q a a' : same_do a a' -> unfreezable q a -> unfreezable q a'.
Proof. intros [D O] (O1 & m & D1 & R). split; [congruence|]. exists m. split; [congruence|exact R]. Qed.
Lemma changes_unfreezable p ms l l' q u : token_program q -> changes p ms l l' -> unfreezable q (l u) -> unfreezable q (l' u).
Proof.
  intros Tq C F. pose proof F as (O & m & D & Hi & Fr & Cl).
  destruct (C u) as [S|(Op & _ & X)]; [exact (unfreezable_same _ _ _ S F)|].
  assert (PQ : p = q) by congruence. rewrite <- PQ in *. clear PQ q.
  assert (K : p = t22_id -> exists m', a_data (l' u) = DMint m' /\ ext_close_authority m' = None).
  { intro E. rewrite E in *. destruct (changes_mints _ _ _ _ C u t22_id m (or_intror eq_refl) (conj O (conj D Hi)) (Cl eq_refl)) as (m' & (_ & D' & _) & C' & _). exists m'. split; assumption. }
  rewrite D in X. remember (a_data (l' u)) as d' eqn:Ed. remember (a_owner (l' u)) as o' eqn:Eo.
  assert (FIN : forall m', d' = DMint m' -> o' = p -> m_init m' = true -> m_freeze m' = None -> unfreezable p (l' u)).
  { intros m' A1 A2 A3 A4. split; [congruence|]. exists m'. split; [congruence|]. split; [exact A3|]. split; [exact A4|].
    intro E. destruct (K E) as (m2 & Q1 & Q2). assert (m2 = m') by congruence. subst m2. exact Q2. }
  destruct X; try discriminate;
    try (match goal with X : unpack_uninit_mint _ = Ok _ |- _ => exfalso; cbn in X; rewrite Hi in X; discriminate X end);
    (match goal with H : DMint m = DMint ?m0 |- _ => assert (m0 = m) by congruence; subst m0; clear H end);
    try (eapply FIN; try reflexivity; assumption).
  - exfalso. congruence.
  - exfalso. destruct Tq as [E|E]; [contradiction|]. rewrite (Cl E) in *. discriminate.
Qed.
(** Frozen, and nobody to thaw it. *)
Definition locked (l : ledger) (u q k : pubkey) : Prop := unfreezable q (l u) /\ frozen_at l k q.
Lemma changes_locked e0 p ms l l' wallet u q b :
  Inv e0 l -> Esc l -> token_program p -> token_program q -> no_tw_signer ms -> changes p ms l l' -> is_tw_pda wallet = true ->
  locked l u q (ata_key wallet q u b) -> locked l' u q (ata_key wallet q u b).
Proof.
  intros I E Tp Tq N C P [F1 F2]. split; [exact (changes_unfreezable _ _ _ _ _ _ Tq C F1)|].
  destruct (changes_frozen e0 p ms l l' wallet u q _ I Tp Tq N C P (E wallet u q b P Tq) F2) as [F|(m & f & D & Fr & _)]; [exact F|].
  exfalso. destruct F1 as (_ & m1 & D1 & _ & Fr1 & _). congruence.
Qed.
Lemma locked_same l l' u q k : same_do (l u) (l' u) -> same_do (l k) (l' k) -> locked l u q k -> locked l' u q k.
Proof. intros S1 S2 [F1 F2]. split; [exact (unfreezable_same _ _ _ S1 F1)|exact (frozen_same _ _ _ _ S2 F2)]. Qed.
Lemma world_token l l' q k : token_program q -> world_change l l' -> a_owner (l k) = q -> same_do (l k) (l' k).
Proof.
  intros T W O. destruct (W k) as (A & _). destruct A as (A1 & A2 & _); [rewrite O; destruct T as [-> | ->]; unfold ruled; auto|]. split; assumption.
Qed.
Lemma ata_token e p w mnt l l' q k : token_program q -> ata_create e p w mnt l = Ok l' -> a_owner (l k) = q -> same_do (l k) (l' k).
Proof.
  intros T X O. destruct (ata_created _ _ _ _ _ _ X) as (Lo & _). rewrite Lo; [split; reflexivity|].
  intros ->. pose proof (ata_unused _ _ _ _ _ _ X) as U. rewrite U in O. subst q. destruct T; discriminate.
Qed.
Lemma foreign_locked e0 l l' wallet u q b : Inv e0 l -> Esc l -> token_program q -> is_tw_pda wallet = true -> foreign_steps l l' ->
  locked l u q (ata_key wallet q u b) -> locked l' u q (ata_key wallet q u b).
Proof.
  intros I E Tq P F. revert I E. induction F as [l|e cpi ms ix l l1 l2 N X F IH|e w mnt l l1 l2 X F IH|l l1 l2 W F IH]; intros I E K.
  - exact K.
  - apply tok_exec_step in X. destruct X as (l3 & C & Cn & H). assert (T : token_program spl_token_id) by (left; reflexivity).
    assert (l1 = l3).
    { destruct H as [H|(m & mnt & n & U & H)]; [exact H|]. unfold run_hook in H. destruct (ext_hook m) as [q'|] eqn:Q; [|congruence].
      pose proof (ext_hook_t22 _ _ _ _ T U Q). discriminate. }
    subst l3. apply IH; [exact (changes_inv _ _ _ _ _ I T N C Cn)|exact (changes_esc _ _ _ _ _ I T N C E)|].
    exact (changes_locked _ _ _ _ _ _ _ _ _ I E T Tq N C P K).
  - assert (T : token_program spl_token_id) by (left; reflexivity). destruct (ata_good _ _ _ _ _ _ _ I T X) as (I1 & _).
    apply IH; [exact I1|exact (ata_esc _ _ _ _ _ _ T X E)|].
    pose proof K as ((O1 & _) & (t & (O2 & _) & _)). exact (locked_same _ _ _ _ _ (ata_token _ _ _ _ _ _ _ _ Tq X O1) (ata_token _ _ _ _ _ _ _ _ Tq X O2) K).
  - destruct (world_good _ _ _ I W) as (I1 & _). apply IH; [exact I1|exact (world_esc _ _ W E)|].
    pose proof K as ((O1 & _) & (t & (O2 & _) & _)). exact (locked_same _ _ _ _ _ (world_token _ _ _ _ Tq W O1) (world_token _ _ _ _ Tq W O2) K).
Qed.
Lemma hook_locked e0 e m ms n l l' wallet u q b : lawful e0 e -> Inv e0 l -> Esc l -> token_program q -> is_tw_pda wallet = true -> run_hook e m ms n l = Ok l' ->
  locked l u q (ata_key wallet q u b) -> locked l' u q (ata_key wallet q u b).
Proof.
  intros [_ L] I E Tq P H K. unfold run_hook in H. destruct (ext_hook m) as [p|]; [|inversion H; subst; exact K].
  destruct (e_hook e p ms n l) as [x|] eqn:Q; [|discriminate]. cbn in H. destruct (balanced _ _ _); [|discriminate]. cbn in H. inversion H; subst l'.
  exact (foreign_locked e0 _ _ _ _ _ _ I E Tq P (L _ _ _ _ _ Q) K).
Qed.
Lemma transfer_locked e p cpi ms src mnt dst auth signers amount dec expf l l' wallet u q b :
  Inv e l -> Esc l -> lawful e e -> token_program p -> token_program q -> is_tw_pda wallet = true ->
  tok_transfer_checked e p cpi ms src mnt dst auth signers amount dec expf l = Ok l' ->
  locked l u q (ata_key wallet q u b) -> locked l' u q (ata_key wallet q u b).
Proof.
  intros I E L Tp Tq P H K. destruct (transfer_unfrozen _ _ _ _ _ _ _ _ _ _ _ _ _ _ H) as [A B].
  destruct (pk_dec src dst) as [Q|Hne].
  - apply transfer_checked_inv in H. destruct H as (s & m & fee & s1 & _ & _ & _ & _ & _ & _ & _ & _ & _ & _ & _ & _ & [[_ ->]|(Q' & _)]); [exact K|contradiction].
  - destruct (transfer_mid _ _ _ _ _ _ _ _ _ _ _ _ _ _ I Tp Hne H)
      as (s & d & m & fee & s1 & dx & l3 & Ds & Dd & _ & _ & _ & _ & _ & _ & _ & _ & _ & _ & _ & _ & Mv & I3 & TS & ms' & n & Hk).
    apply (hook_locked e e m ms' n l3 l' wallet u q b L I3 (tame_esc _ _ TS E) Tq P Hk).
    assert (SD : forall k, k <> src -> k <> dst -> same_do (l k) (l3 k)).
    { intros k N1 N2. destruct (move_native_same _ _ _ _ _ _ _ _ Mv k) as [X Y]. unfold transfer_ledger in X, Y. cbv zeta in X, Y.
      rewrite !upd_other in X, Y by (clear - N1 N2; congruence). split; assumption. }
    pose proof K as ((_ & mu & Du & _) & (t & (_ & Dk & _) & Sk)). apply (locked_same l l3 u q _); [| |exact K].
    + apply SD; intros ->; congruence.
    + apply SD; intro Y; [apply (A t)|apply (B t)]; try exact Sk; rewrite <- Y; exact Dk.
Qed.
Lemma step_locked e0 a l l' wallet u q b :
  Inv e0 l -> Esc l -> step e0 a l l' -> token_program q -> is_tw_pda wallet = true ->
  locked l u q (ata_key wallet q u b) -> locked l' u q (ata_key wallet q u b).
Proof.
  intros I E S T P K. remember (ata_key wallet q u b) as k eqn:Ekk. pose proof K as ((O1 & mu & D1 & Hi1 & _) & (t & (O2 & D2 & _) & St)).
  assert (T1 : token_program (a_owner (l u))) by (rewrite O1; exact T). assert (T2 : token_program (a_owner (l k))) by (rewrite O2; exact T).
  destruct S as [e accounts input l l' L NS R|e p cpi accounts ix l l' L Tp NS X|e p w mnt l l' L Tp X|l l' W].
  - pose proof L as [SC _]. pose proof (Inv_curve _ _ _ SC I) as Ie. pose proof (lawful_self _ _ L) as Le.
    unfold runs, process_instruction in R. apply bind_ok in R. destruct R as (i & Ei & H).
    assert (CP : c_prog (mkCtx tw_id accounts) = tw_id) by reflexivity.
    change (no_tw_signer (c_infos (mkCtx tw_id accounts))) in NS. remember (mkCtx tw_id accounts) as c eqn:Ec. clear Ec accounts Ei.
    destruct i; cbn [process_instr map_instr] in H.
    + apply (locked_same l); [| |exact K].
      * destruct (map i_key (c_infos c)) as [|w [|bk [|u' [|x [|p rest]]]]] eqn:Ek;
          try (unfold process_create_mint in H; destruct (c_infos c) as [|? [|? [|? [|? [|? ?]]]]]; discriminate).
        destruct (process_create_inv _ _ _ _ _ _ _ _ _ _ _ Ek CP H) as (Hw & Hb & _ & [(_ & _ & _ & _ & ->)|X]); [split; reflexivity|].
        destruct X as (_ & _ & Ow & Ob & _ & _ & _ & _ & _ & mu' & _ & Lw & Lb & Lo).
        rewrite Lo; [split; reflexivity| |]; intro Q; rewrite Q in T1; rewrite ?Ow, ?Ob in T1; destruct T1; discriminate.
      * exact (create_custody _ _ _ _ _ _ _ _ CP D2 T2 H eq_refl).
    + destruct (map i_key (c_infos c)) as [|r [|w [|a [|up [|wp [|s [|u' [|esc [|ta rest]]]]]]]]] eqn:Ek;
        try (unfold process_wrap in H; inv_ok; destruct (c_infos c) as [|? [|? [|? [|? [|? [|? [|? [|? [|? ?]]]]]]]]]; discriminate).
      destruct (process_wrap_inv _ _ _ _ _ _ _ _ _ _ _ _ _ _ _ Ek CP H)
        as (_ & Tu & Tw & _ & _ & _ & et & um & ms & extra & l1 & msm & _ & _ & _ & _ & _ & _ & Ht & _ & _ & Hm).
      rewrite Ekk in K. pose proof (transfer_locked _ _ _ _ _ _ _ _ _ _ _ _ _ _ _ _ _ _ Ie E Le Tu T P Ht K) as K1. rewrite <- Ekk in K1. destruct K1 as [K1 K2].
      split; [exact (changes_unfreezable _ _ _ _ _ _ T (changes_mint_to _ _ _ _ _ _ _ _ _ Hm) K1)|].
      pose proof K2 as (t1 & (_ & Dt & _) & _). exact (frozen_calm _ _ _ _ (mint_to_calm _ _ _ _ _ _ _ _ _ _ _ Dt Hm) K2).
    + destruct (map i_key (c_infos c)) as [|esc [|r [|a [|u' [|wp [|up [|s [|w [|ta rest]]]]]]]]] eqn:Ek;
        try (unfold process_unwrap in H; inv_ok; destruct (c_infos c) as [|? [|? [|? [|? [|? [|? [|? [|? [|? ?]]]]]]]]]; discriminate).
      destruct (process_unwrap_inv _ _ _ _ _ _ _ _ _ _ _ _ _ _ _ Ek CP H)
        as (_ & Tu & Tw & _ & _ & _ & msk & msb & l1 & um & extra & ms & _ & Cp & Hb & _ & _ & _ & Ht).
      pose proof (plain_unsigned _ _ NS Cp) as NM. pose proof (changes_burn _ _ _ _ _ _ _ _ _ _ Hb) as C1.
      pose proof (changes_inv _ _ _ _ _ Ie Tw NM C1 (conserves_burn _ _ _ _ _ _ _ _ _ _ Hb)) as I1. pose proof (changes_esc _ _ _ _ _ Ie Tw NM C1 E) as E1.
      rewrite Ekk in *. pose proof (changes_locked _ _ _ _ _ _ _ _ _ Ie E Tw T NM C1 P K) as K1.
      exact (transfer_locked _ _ _ _ _ _ _ _ _ _ _ _ _ _ _ _ _ _ I1 E1 Le Tu T P Ht K1).
    + destruct (map i_key (c_infos c)) as [|esc [|d [|u' [|w [|a [|p rest]]]]]] eqn:Ek;
        try (unfold process_close_stuck_escrow in H; destruct (c_infos c) as [|? [|? [|? [|? [|? [|? ?]]]]]]; discriminate).
      destruct (process_close_inv _ _ _ _ _ _ _ _ _ _ _ Ek CP H) as (Oe & _ & _ & _ & He & et & m1 & msc & Ue & _ & Za & Se & _ & _ & _ & _ & _ & Ht).
      apply pod_unpack_tok_inv in Ue. destruct Ue as [De _].
      destruct (tok_close_tok_inv _ _ _ _ _ _ _ _ _ _ De Ht) as (Ned & _ & _ & _ & _ & _ & _ & Le' & Ld & Lo).
      assert (SD : forall x, x <> esc -> same_do (l x) (l' x)).
      { intros x N1. destruct (pk_dec x d) as [->|N2]; [rewrite Ld|rewrite Lo by assumption]; split; reflexivity. }
      apply (locked_same l); [| |exact K]; apply SD; clear - D1 D2 De Se St; intros ->; congruence.
    + destruct (map i_key (c_infos c)) as [|w [|a [|u' [|p rest]]]] eqn:Ek;
        try (unfold process_sync_metadata_to_token_2022 in H; destruct (c_infos c) as [|? [|? [|? [|? ?]]]]; discriminate).
      pose proof (sync_t22_kept _ _ _ _ CP H) as [MK _]. pose proof (sync_t22_custody _ _ _ _ _ _ CP D2 H) as SK.
      destruct (process_sync_t22_inv _ _ _ _ _ _ _ _ _ Ek CP H) as (_ & Ow & Hw & Ha & um & m1 & _ & Um & X).
      apply pod_unpack_mint_inv in Um. destruct Um as [Dm _]. clear Hw.
      split; [|destruct K as [_ K]; exact (frozen_same _ _ _ _ SK K)].
      destruct (pk_dec u w) as [Q|N].
      * destruct K as [(_ & m2 & D3 & Hi & Fr & Cl) _]. assert (m2 = m1) by (clear - D3 Dm Q; congruence). subst m2.
        assert (Q2 : q = t22_id) by (clear - O1 Ow Q; congruence). rewrite Q2 in O1, Cl |- *.
        destruct (MK u t22_id m1 (or_intror eq_refl) (conj O1 (conj D3 Hi)) (Cl eq_refl)) as (m' & (O' & D' & Hi') & C' & _).
        split; [exact O'|]. exists m'. split; [exact D'|]. split; [exact Hi'|]. split; [|intros _; exact C'].
        clear - X Q D' Fr. rewrite Q in D'. destruct X as [(t0 & _ & _ & len & _ & Lw)|(_ & _ & _ & _ & Lw)]; rewrite Lw in D'; cbn in D'; injection D' as <-; exact Fr.
      * destruct K as [K _]. apply (unfreezable_same _ (l u)); [|exact K].
        destruct X as [(t0 & _ & Lo & _)|(_ & _ & _ & Lo & _)]; rewrite (Lo _ N); split; reflexivity.
    + apply (locked_same l); [|exact (sync_spl_custody _ _ _ _ _ _ CP D2 T2 H)|exact K].
      destruct (map i_key (c_infos c)) as [|md [|a [|w [|u' [|x [|sy [|rn rest]]]]]]] eqn:Ek;
        try (unfold process_sync_metadata_to_spl_token in H; destruct (c_infos c) as [|? [|? [|? [|? [|? [|? [|? ?]]]]]]]; discriminate).
      destruct (process_sync_spl_inv _ _ _ _ _ _ _ _ _ _ _ _ Ek CP H) as (_ & _ & _ & Ha & Hmd & _ & um & d & _ & _ & X). clear Ha Hmd.
      destruct X as [(_ & Om & _ & _ & _ & _ & m1 & _ & _ & ->)|(_ & Om & old & Dm & _ & _ & _ & ->)]; cbv zeta.
      * assert (N1 : md <> u) by (intros ->; rewrite Om in T1; destruct T1; discriminate). rewrite upd_other by exact N1.
        destruct (pk_dec a u) as [<-|N2]; [rewrite upd_same; split; reflexivity|rewrite upd_other by exact N2; split; reflexivity].
      * rewrite upd_other by (intros ->; rewrite Om in T1; destruct T1; discriminate). split; reflexivity.
    + apply (locked_same l); [|exact (set_pointer_custody _ _ _ _ _ _ _ CP D2 T2 H)|exact K].
      destruct (map i_key (c_infos c)) as [|a [|p [|u' [|x rest]]]] eqn:Ek;
        try (unfold process_set_canonical_pointer in H; destruct (c_infos c) as [|? [|? [|? [|? ?]]]]; discriminate).
      destruct (process_set_pointer_inv _ _ _ _ _ _ _ _ _ _ Ek CP H) as (Sa & Tu & Hp & _ & (m1 & Um & Am) & Q & Lp & Lo). clear Hp.
      rewrite Lo; [split; reflexivity|]. intro Y. rewrite Y in T1. destruct Q as [(_ & Op & _)|(_ & Op)]; rewrite Op in T1; destruct T1; discriminate.
  - apply tok_exec_step in X. destruct X as (l3 & C & Cn & H). rewrite Ekk in *.
    pose proof (changes_locked _ _ _ _ _ _ _ _ _ I E Tp T NS C P K) as K1.
    destruct H as [->|(m & mnt & n & _ & H)]; [exact K1|].
    exact (hook_locked _ _ _ _ _ _ _ _ _ _ _ L (changes_inv _ _ _ _ _ I Tp NS C Cn) (changes_esc _ _ _ _ _ I Tp NS C E) T P H K1).
  - exact (locked_same _ _ _ _ _ (ata_token _ _ _ _ _ _ _ _ T X O1) (ata_token _ _ _ _ _ _ _ _ T X O2) K).
  - exact (locked_same _ _ _ _ _ (world_token _ _ _ _ T W O1) (world_token _ _ _ _ T W O2) K).
Qed.
(** C74: if at some point the escrow was frozen and its mint had no freeze authority (and, being of Token-2022, no close authority), then
    in every later state, whatever anybody has done, hooks included, the escrow is frozen and nobody wraps, unwraps or closes it. *)
Theorem C74_forever : forall e0 past l u utp wtp x t mu,
  history e0 past l -> In x (l :: past) -> spl_or_t22 utp ->
  let esc := escrow_of e0 u utp wtp in
  token_account x esc utp t -> t_state t = Frozen ->
  mint_account x u utp mu -> m_freeze mu = None -> (utp = t22_id -> ext_close_authority mu = None) ->
  (exists t', token_account l esc utp t' /\ t_state t' = Frozen) /\
  (forall e accounts n r w a up wp s v ta z, n < two64 -> keys_are accounts [r; w; a; up; wp; s; v; esc; ta] -> ~ succeeds e accounts (Wrap n) l z) /\
  (forall e accounts n r a v wp up s w ta z, n < two64 -> keys_are accounts [esc; r; a; v; wp; up; s; w; ta] -> ~ succeeds e accounts (Unwrap n) l z) /\
  (forall e accounts d v w a p z, keys_are accounts [esc; d; v; w; a; p] -> ~ succeeds e accounts CloseStuckEscrow l z).
Proof.
  intros e0 past l u utp wtp x t mu H Hx T esc TA St (Om & Dm & Hi) Fr Cl.
  assert (W : is_tw_pda (authority_of e0 (wrapped_mint_of e0 u wtp)) = true) by apply is_tw_pda_authority.
  assert (KE : exists b, esc = ata_key (authority_of e0 (wrapped_mint_of e0 u wtp)) utp u b) by (unfold esc, escrow_of, escrow_for; apply ata_key_of).
  destruct KE as [b KE].
  assert (LX : locked x u utp esc) by (split; [split; [exact Om|exists mu; auto]|exists t; split; assumption]).
  assert (LL : locked l u utp esc).
  { clear - H Hx T LX KE W. rewrite KE in *. revert W LX. generalize (authority_of e0 (wrapped_mint_of e0 u wtp)) as wallet. intros wallet W LX.
    induction H as [l G|past l a l' H IH S]; [destruct Hx as [<-|[]]; exact LX|].
    destruct Hx as [<-|Hx]; [exact LX|]. exact (step_locked _ _ _ _ _ _ _ _ (history_inv _ _ _ H) (history_esc _ _ _ H) S T W (IH Hx)). }
  destruct LL as [_ (t' & (O' & D' & S') & St')].
  split; [exists t'; split; [split; [exact O'|split; [exact D'|exact S']]|exact St']|]. split; [|split].
  - intros e accounts n r w a up wp s v ta z Hn K S. destruct (C74_wrap_unfrozen _ _ _ _ _ _ _ _ _ _ _ _ _ _ Hn K S) as (_ & U & _). exact (U t' D' St').
  - intros e accounts n r a v wp up s w ta z Hn K S. destruct (C74_unwrap_unfrozen _ _ _ _ _ _ _ _ _ _ _ _ _ _ Hn K S) as (_ & U & _). exact (U t' D' St').
  - intros e accounts d v w a p z K S.
    destruct (C22_close _ _ _ _ _ _ _ _ _ _ K S) as (_ & _ & (mu' & te & _ & (_ & De & _) & _ & _ & Se & _) & _).
    assert (te = t') by (clear - De D'; congruence). subst te. clear - Se St'. congruence.
Qed.
Print Assumptions C74_forever.

(** ** The hypotheses are met *)
Definition freeze_escrow : cmd := CTok spl_token_id [meta_w (d_esc spl_token_id t22_id) false; meta_r d_u false; meta_r d_freeze true] (TiFreeze true).
Definition renounce_freeze : cmd := CTok spl_token_id [meta_w d_u false; meta_r d_freeze true] (TiSetAuthority AuFreezeAccount None).
Definition frozen_story : list cmd := story ++ [freeze_escrow].
(** The freeze authority freezes the escrow; Alice, who could unwrap before, gives 20 wrapped tokens to Bob; still nobody can unwrap. *)
Definition some_tok (d : data) : tokacc := match d with DTok t => t | _ => mkTok d_u d_u 0 None 0 Initialized None None [] end.
Definition some_mint (d : data) : mint := match d with DMint m => m | _ => mkMint None 0 0 true None [] 0 end.
Example C74_hostage_example : exists acts l',
  reachable demo_env (now_of frozen_story) /\ course demo_env acts (now_of frozen_story) l' /\ acts <> [] /\ never_thawed acts d_u spl_token_id /\
  (exists z, succeeds demo_env (tx_metas (i_unwrap 20)) (Unwrap 20) (now_of story) z) /\
  forall e accounts n r a v wp up s w ta z, n < two64 -> keys_are accounts [d_esc spl_token_id t22_id; r; a; v; wp; up; s; w; ta] -> ~ succeeds e accounts (Unwrap n) l' z.
Proof.
  destruct (last_step frozen_story (CTok t22_id send_bob_20 (TiTransferChecked 20 6))) as [R Nx]; [vm_compute; reflexivity|].
  cbn [next] in Nx. destruct (tok_exec demo_env t22_id false send_bob_20 (TiTransferChecked 20 6) (now_of frozen_story)) as [l'|err] eqn:E1.
  2: { exfalso. assert (K : match tok_exec demo_env t22_id false send_bob_20 (TiTransferChecked 20 6) (now_of frozen_story) with Ok _ => true | Err _ => false end = true) by (vm_compute; reflexivity).
       rewrite E1 in K. discriminate K. }
  clear Nx. assert (CO : course demo_env [(ATokenProgram demo_env t22_id false send_bob_20 (TiTransferChecked 20 6), now_of frozen_story)] (now_of frozen_story) l').
  { eapply co_step; [apply st_token_program; [exact demo_lawful|right; reflexivity|apply unsignedb_true; vm_compute; reflexivity|exact E1]|]. apply co_end. }
  assert (NT : never_thawed [(ATokenProgram demo_env t22_id false send_bob_20 (TiTransferChecked 20 6), now_of frozen_story)] d_u spl_token_id).
  { intros a x m f [Q|[]] D F. apply pair_equal_spec in Q. destruct Q as [<- <-].
    assert (f = d_freeze).
    { assert (K : match a_data (now_of frozen_story d_u) with DMint m => m_freeze m = Some d_freeze | _ => False end) by (vm_compute; reflexivity). rewrite D in K. clear - K F. congruence. }
    subst f. apply not_signed_by; [vm_compute; reflexivity|]. intros ms Q.
    assert (K : match a_data (now_of frozen_story d_freeze) with DMultisig _ => false | _ => true end = true) by (vm_compute; reflexivity). rewrite Q in K. discriminate K. }
  exists [(ATokenProgram demo_env t22_id false send_bob_20 (TiTransferChecked 20 6), now_of frozen_story)], l'.
  split; [exact R|]. split; [exact CO|]. split; [discriminate|]. split; [exact NT|]. split.
  { unfold succeeds, outcome. change (pack (Unwrap 20)) with (tx_data (i_unwrap 20)).
    destruct (process_instruction demo_env (mkCtx tw_id (tx_metas (i_unwrap 20))) (tx_data (i_unwrap 20)) (now_of story)) as [z|err] eqn:E2; [exists z; reflexivity|].
    exfalso. assert (K : match process_instruction demo_env (mkCtx tw_id (tx_metas (i_unwrap 20))) (tx_data (i_unwrap 20)) (now_of story) with Ok _ => true | Err _ => false end = true) by (vm_compute; reflexivity).
    rewrite E2 in K. discriminate K. }
  destruct (C74_hostage demo_env _ _ _ d_u spl_token_id t22_id (some_tok (a_data (now_of frozen_story (d_esc spl_token_id t22_id)))) R CO (or_introl eq_refl)) as (_ & _ & U & _).
  - unfold token_account, d_esc. split; [vm_compute; reflexivity|]. split; [vm_compute; reflexivity|vm_compute; discriminate].
  - vm_compute. reflexivity.
  - right. intros a x [Q|[]]. apply pair_equal_spec in Q. destruct Q as [<- <-]. cbn [hooks_spare]. intros p ms n l l2 Hh. cbn in Hh. inversion Hh. split; reflexivity.
  - exact NT.
  - exact U.
Qed.
(** C74, a loss: the freeze authority freezes the escrow and gives up its power.  200 wrapped tokens are backed by 200 tokens, and nobody
    will ever redeem them. *)
Definition locked_story : list cmd := frozen_story ++ [renounce_freeze].
Theorem C74_locked_refuted : exists past l,
  history demo_env past l /\ supply l (d_w t22_id) = 200 /\ balance l (d_esc spl_token_id t22_id) = 200 /\ balance l d_bob_w = 50 /\
  forall past' z, history demo_env past' z -> In l (z :: past') ->
    forall e accounts n r a v wp up s w ta z', n < two64 -> keys_are accounts [d_esc spl_token_id t22_id; r; a; v; wp; up; s; w; ta] -> ~ succeeds e accounts (Unwrap n) z z'.
Proof.
  exists (past_of locked_story), (now_of locked_story). split; [apply played_history; vm_compute; reflexivity|].
  split; [vm_compute; reflexivity|]. split; [vm_compute; reflexivity|]. split; [vm_compute; reflexivity|].
  intros past' z H Hx.
  destruct (C74_forever demo_env past' z d_u spl_token_id t22_id (now_of locked_story) (some_tok (a_data (now_of locked_story (d_esc spl_token_id t22_id))))
              (some_mint (a_data (now_of locked_story d_u))) H Hx (or_introl eq_refl)) as (_ & _ & U & _).
  - unfold token_account, d_esc. split; [vm_compute; reflexivity|]. split; [vm_compute; reflexivity|vm_compute; discriminate].
  - vm_compute. reflexivity.
  - unfold mint_account, mint_data. split; [vm_compute; reflexivity|]. split; [vm_compute; reflexivity|vm_compute; reflexivity].
  - vm_compute. reflexivity.
  - intro Q. discriminate Q.
  - exact U.
Qed.
Print Assumptions C74_locked_refuted.
(** C74: renouncing the freeze authority of the unwrapped mint does not renounce that of the wrapped mint, which was copied from it: the
    old freeze authority still freezes Bob's wrapped tokens, and then he cannot unwrap them. *)
Definition renounced_story : list cmd := story ++ [renounce_freeze].
Theorem C74_renounced_refuted : exists l a l' mu,
  reachable demo_env l /\ step demo_env a l l' /\ mint_account l d_u spl_token_id mu /\ m_freeze mu = None /\ unfrozen l d_bob_w /\
  consented a l t22_id d_freeze /\ balance l' d_bob_w = 50 /\
  forall e accounts n esc r c u wp up w ta z, n < two64 -> keys_are accounts [esc; r; c; u; wp; up; d_bob_w; w; ta] -> ~ succeeds e accounts (Unwrap n) l' z.
Proof.
  set (ms := [meta_w d_bob_w false; meta_r (d_w t22_id) false; meta_r d_freeze true]).
  destruct (last_step renounced_story (CTok t22_id ms (TiFreeze true))) as [R _]; [vm_compute; reflexivity|].
  destruct (tok_exec demo_env t22_id false ms (TiFreeze true) (now_of renounced_story)) as [l'|err] eqn:E1.
  2: { exfalso. assert (K : match tok_exec demo_env t22_id false ms (TiFreeze true) (now_of renounced_story) with Ok _ => true | Err _ => false end = true) by (vm_compute; reflexivity).
       rewrite E1 in K. discriminate K. }
  assert (K : match tok_exec demo_env t22_id false ms (TiFreeze true) (now_of renounced_story) with
              | Ok y => match a_data (y d_bob_w) with DTok t => match t_state t with Frozen => balance y d_bob_w =? 50 | _ => false end | _ => false end | Err _ => false end = true) by (vm_compute; reflexivity).
  rewrite E1 in K. destruct (a_data (l' d_bob_w)) as [| | |t| |] eqn:D; try discriminate K. destruct (t_state t) eqn:St; try discriminate K. apply N.eqb_eq in K.
  exists (now_of renounced_story), (ATokenProgram demo_env t22_id false ms (TiFreeze true)), l', (some_mint (a_data (now_of renounced_story d_u))).
  split; [exact R|]. split; [apply st_token_program; [exact demo_lawful|right; reflexivity|apply unsignedb_true; vm_compute; reflexivity|exact E1]|].
  split; [unfold mint_account, mint_data; split; [vm_compute; reflexivity|]; split; [vm_compute; reflexivity|vm_compute; reflexivity]|]. split; [vm_compute; reflexivity|].
  split. { intros t0 D0. assert (Q : match a_data (now_of renounced_story d_bob_w) with DTok t => t_state t = Initialized | _ => False end) by (vm_compute; reflexivity). rewrite D0 in Q. rewrite Q. discriminate. }
  split. { cbn [consented]. left. exists (meta_r d_freeze true). split; [right; right; left; reflexivity|split; reflexivity]. }
  split; [exact K|].
  intros e accounts n esc r c u wp up w ta z Hn Ka S. destruct (C74_unwrap_unfrozen _ _ _ _ _ _ _ _ _ _ _ _ _ _ Hn Ka S) as (U & _ & _). exact (U t D St).
Qed.
Print Assumptions C74_renounced_refuted.
