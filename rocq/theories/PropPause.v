(** * PropPause.v — C76: the rules of the unwrapped mint, above all pausing.  Nobody but their own authorities changes the settings of a
    Token-2022 mint (pause, transfer hook, permanent delegate, close authority): token-wrap never does.  A paused mint stops Wrap and
    Unwrap for everybody until its pause authority acts; if there is none any more, for ever. *)
From Verif Require Import Base Codec State Pda TokenProg Cpi Ata Meta Processor Builders Tac Demo Demo2 PdaProofs TokProofs FrameProofs ProcProofs Spec SpecLemmas
  WrapProofs CreateProofs MapProofs SyncProofs SyncProofs2 CloseProofs MatchProofs InvTok InvCons HistorySpec InvState InvTw InvHist EscProofs EscLive HistProofs DemoHist PropClose PropHistory PropCustody PropSurplus PropEscrow PropFreeze.

(** ** The settings of a Token-2022 mint *)
(** Pausable: who may pause, and whether it is paused; transfer hook: who may set it, and the program; permanent delegate; who may close. *)
Definition pausable_of (x : mint_ext) : option (option pubkey * bool) := match x with MxPausable a b => Some (a, b) | _ => None end.
Definition hook_of (x : mint_ext) : option (option pubkey * option pubkey) := match x with MxTransferHook a p => Some (a, p) | _ => None end.
Definition delegate_of (x : mint_ext) : option (option pubkey) := match x with MxPermanentDelegate d => Some d | _ => None end.
Definition closer_of (x : mint_ext) : option (option pubkey) := match x with MxMintCloseAuthority a => Some a | _ => None end.
Definition setting {X} (P : mint_ext -> option X) (m : mint) : option X := find_map P (m_exts m).

Definition rule {X} (P : mint_ext -> option X) (au : mint -> X -> option pubkey) : Prop :=
  (forall x y v, mint_ext_same x y = true -> P x = Some v -> P y <> None) /\
  (forall m y v, P y = Some v -> ext_authority m y = au m v) /\
  (forall t, P (MxTokenMetadata t) = None) /\
  (forall c n, P (MxTransferFee (mkFeeConfig (fc_authority c) (fc_withdraw_authority c) n (fc_older c) (fc_newer c))) = P (MxTransferFee c)).
Lemma rule_pausable : rule pausable_of (fun _ => fst).
Proof.
  split; [intros x y v S E; destruct x; try discriminate E; destruct y; try discriminate S; discriminate|]. split; [intros m y v E; destruct y; try discriminate E; injection E as <-; reflexivity|].
  split; reflexivity.
Qed.
Lemma rule_hook : rule hook_of (fun _ => fst).
Proof.
  split; [intros x y v S E; destruct x; try discriminate E; destruct y; try discriminate S; discriminate|]. split; [intros m y v E; destruct y; try discriminate E; injection E as <-; reflexivity|].
  split; reflexivity.
Qed.
Lemma rule_delegate : rule delegate_of (fun _ x => x).
Proof.
  split; [intros x y v S E; destruct x; try discriminate E; destruct y; try discriminate S; discriminate|]. split; [intros m y v E; destruct y; try discriminate E; injection E as <-; reflexivity|].
  split; reflexivity.
Qed.
Lemma rule_closer : rule closer_of (fun _ x => x).
Proof.
  split; [intros x y v S E; destruct x; try discriminate E; destruct y; try discriminate S; discriminate|]. split; [intros m y v E; destruct y; try discriminate E; injection E as <-; reflexivity|].
  split; reflexivity.
Qed.

Section Rule.
Context {X : Type} (P : mint_ext -> option X) (au : mint -> X -> option pubkey) (R : rule P au).

Lemma replace_setting x l old : find (mint_ext_same x) l = Some old ->
  find_map P (replace_ext x l) = find_map P l \/ exists v, find_map P l = Some v /\ P old = Some v.
Proof.
  destruct R as (K & _). induction l as [|y r IH]; cbn [find replace_ext find_map]; intro F; [discriminate F|].
  destruct (mint_ext_same x y) eqn:S.
  - injection F as <-. destruct (P y) as [v|] eqn:E; [right; exists v; split; reflexivity|left]. cbn [find_map].
    destruct (P x) as [v|] eqn:E2; [exfalso; exact (K x y v S E2 E)|reflexivity].
  - cbn [find_map]. destruct (P y) as [v|] eqn:E; [left; reflexivity|exact (IH F)].
Qed.
Lemma fee_setting n l : find_map P (set_fee_withheld n l) = find_map P l.
Proof.
  destruct R as (_ & _ & _ & F). induction l as [|y r IH]; [reflexivity|]. destruct y; cbn [set_fee_withheld find_map]; try (rewrite IH; reflexivity).
  rewrite F. reflexivity.
Qed.
Lemma md_setting t l : find_map P (replace_metadata t l) = find_map P l.
Proof.
  destruct R as (_ & _ & F & _). induction l as [|y r IH]; [reflexivity|]. destruct y; cbn [replace_metadata find_map]; try (rewrite IH; reflexivity).
  rewrite !F. reflexivity.
Qed.
Lemma md_append_setting t l : find_map P (l ++ [MxTokenMetadata t]) = find_map P l.
Proof. rewrite find_map_app. destruct R as (_ & _ & F & _). cbn [find_map]. rewrite F. destruct (find_map P l); reflexivity. Qed.

(** The setting is what it was, or somebody entitled agreed ([C]). *)
Definition upheld (C : pubkey -> Prop) (m : mint) (l' : ledger) (u : pubkey) : Prop :=
  (exists m', mint_account l' u t22_id m' /\ (setting P m' = setting P m \/ exists v f, setting P m = Some v /\ au m v = Some f /\ C f)) \/
  (exists f, ext_close_authority m = Some f /\ m_supply m = 0 /\ C f).
Definition same_setting (l' : ledger) (u : pubkey) (m : mint) : Prop := exists m', mint_account l' u t22_id m' /\ setting P m' = setting P m.
Lemma same_upheld C m l' u : same_setting l' u m -> upheld C m l' u.
Proof. intros (m' & M & E). left. exists m'. split; [exact M|left; exact E]. Qed.
Lemma upheld_mono (C D : pubkey -> Prop) m l' u : (forall f, C f -> D f) -> upheld C m l' u -> upheld D m l' u.
Proof.
  intros CD [(m' & M & [E|(v & f & A & B & E)])|(f & A & B & E)]; [left; exists m'; split; [exact M|left; exact E]| |right; exists f; auto].
  left. exists m'. split; [exact M|]. right. exists v, f. auto.
Qed.
Lemma setting_same l l' u m : same_do (l u) (l' u) -> mint_account l u t22_id m -> same_setting l' u m.
Proof. intros [D O] (O1 & D1 & I). exists m. split; [|reflexivity]. split; [congruence|]. split; [congruence|exact I]. Qed.
Lemma setting_trans l1 l2 u m : same_setting l1 u m -> (forall m', mint_account l1 u t22_id m' -> same_setting l2 u m') -> same_setting l2 u m.
Proof. intros (m1 & M1 & D1) H. destruct (H m1 M1) as (m2 & M2 & D2). exists m2. split; [exact M2|congruence]. Qed.

Lemma changes_setting p ms l l' u m : changes p ms l l' -> mint_account l u t22_id m -> upheld (signed_for t22_id l (is_sig ms)) m l' u.
Proof.
  intros C M. pose proof M as (O & D & I). destruct (C u) as [S|(Op & _ & Y)]; [apply same_upheld; exact (setting_same _ _ _ _ S M)|].
  assert (EP : p = t22_id) by congruence. clear Op. subst p. rewrite D in Y. remember (a_data (l' u)) as d' eqn:Ed. remember (a_owner (l' u)) as o' eqn:Eo.
  assert (FIN : forall m', d' = DMint m' -> o' = t22_id -> m_init m' = true -> setting P m' = setting P m -> upheld (signed_for t22_id l (is_sig ms)) m l' u).
  { intros m' A1 A2 A3 A4. apply same_upheld. exists m'. split; [|exact A4]. split; [congruence|]. split; [congruence|exact A3]. }
  destruct Y; try discriminate;
    try (match goal with Z : unpack_uninit_mint _ = Ok _ |- _ => exfalso; cbn in Z; rewrite I in Z; discriminate Z end);
    (match goal with Z : DMint m = DMint ?m0 |- _ => assert (m0 = m) by congruence; subst m0; clear Z end);
    try (eapply FIN; try reflexivity; assumption).
  - destruct (replace_setting x (m_exts m) old) as [Q|(v & Q1 & Q2)]; [assumption| |].
    + eapply FIN; try reflexivity; try assumption.
    + left. eexists. split; [split; [congruence|split; [symmetry; exact Ed|exact I]]|]. right. exists v, a. split; [exact Q1|].
      destruct R as (_ & A & _). split; [rewrite <- (A m old v Q2); assumption|assumption].
  - eapply FIN; try reflexivity; try assumption. unfold setting. cbn [m_exts set_mexts]. apply fee_setting.
  - eapply FIN; try reflexivity; try assumption. unfold setting. cbn [m_exts set_mexts]. apply md_append_setting.
  - eapply FIN; try reflexivity; try assumption. unfold setting. cbn [m_exts set_mexts]. apply md_setting.
  - right. exists a. auto.
Qed.
Lemma transfer_setting e0 e p cpi ms src mnt dst auth signers amount dec expf l l' u m :
  Inv e l -> lawful e0 e -> token_program p ->
  tok_transfer_checked e p cpi ms src mnt dst auth signers amount dec expf l = Ok l' -> mint_account l u t22_id m -> same_setting l' u m.
Proof.
  intros I L T H M. destruct (pk_dec src dst) as [<-|Hne].
  - apply transfer_checked_inv in H.
    destruct H as (s & m1 & fee & s1 & _ & _ & _ & _ & _ & _ & _ & _ & _ & _ & _ & _ & [[_ ->]|(Q & _)]); [|contradiction].
    exists m. split; [exact M|reflexivity].
  - destruct (transfer_mid _ _ _ _ _ _ _ _ _ _ _ _ _ _ I T Hne H)
      as (s & d & m1 & fee & s1 & dx & l3 & Ds & Dd & _ & _ & _ & _ & _ & _ & _ & _ & _ & _ & _ & _ & Mv & I3 & TS & ms' & n & Hk).
    assert (S3 : same_setting l3 u m).
    { apply (setting_same l); [|exact M]. destruct M as (_ & D & _).
      destruct (move_native_same_do _ _ _ _ _ _ _ _ Mv u) as [A B]. unfold transfer_ledger in A, B. cbv zeta in A, B.
      rewrite !upd_other in A, B by congruence. split; congruence. }
    apply (setting_trans l3); [exact S3|]. intros m2 M2. apply (setting_same l3); [|exact M2]. destruct M2 as (O2 & _).
    exact (hook_same _ _ _ _ _ _ _ _ _ L Hk (or_introl eq_refl) O2).
Qed.
Lemma mint_to_setting p ms mnt dst auth signers n l l' u m :
  tok_mint_to p ms mnt dst auth signers n l = Ok l' -> mint_account l u t22_id m -> same_setting l' u m.
Proof.
  intros H M. apply mint_to_inv in H. destruct H as (d & m1 & Ud & _ & _ & _ & Um & _ & _ & _ & _ & Od & Om & Ne & _ & _ & ->).
  apply unpack_tok_inv in Ud. destruct Ud as (Dd & _). apply unpack_mint_inv in Um. destruct Um as (Dm & Im & _).
  pose proof M as (O & D & I). destruct (pk_dec u mnt) as [->|N].
  - assert (m1 = m) by congruence. subst m1. eexists. split.
    + split; [rewrite upd_same; exact O|]. split; [rewrite upd_same; reflexivity|exact I].
    + reflexivity.
  - apply (setting_same l); [|exact M]. rewrite upd_other by congruence. rewrite upd_other by congruence. split; reflexivity.
Qed.
Lemma burn_setting prog cpi ms src mnt auth signers amount l l' u m :
  tok_burn prog cpi ms src mnt auth signers amount l = Ok l' -> mint_account l u t22_id m -> same_setting l' u m.
Proof.
  intros H M. apply burn_inv in H. destruct H as (s & m1 & s1 & Us & Um & Fs & _ & _ & _ & Au & _ & _ & _ & Hne & _ & _ & ->).
  apply unpack_tok_inv in Us. destruct Us as (Ds & _). apply unpack_mint_inv in Um. destruct Um as (Dm & _).
  pose proof M as (O & D & I). destruct (pk_dec u mnt) as [->|N].
  - assert (m1 = m) by congruence. subst m1. eexists. split.
    + split; [rewrite upd_same; exact O|]. split; [rewrite upd_same; reflexivity|exact I].
    + reflexivity.
  - apply (setting_same l); [|exact M]. rewrite upd_other by congruence. rewrite upd_other by congruence. split; reflexivity.
Qed.
Lemma instr_setting e c i l l' u m :
  Inv e l -> lawful e e -> no_tw_signer (c_infos c) -> c_prog c = tw_id -> process_instr e c i l = Ok l' -> mint_account l u t22_id m -> same_setting l' u m.
Proof.
  intros I L NS Hc H M. pose proof M as (O & D & _). assert (T : token_program t22_id) by (right; reflexivity).
  destruct i; cbn [process_instr map_instr] in H.
  - destruct (map i_key (c_infos c)) as [|w [|b [|u' [|x [|p rest]]]]] eqn:Ek;
      try (unfold process_create_mint in H; destruct (c_infos c) as [|? [|? [|? [|? [|? ?]]]]]; discriminate).
    destruct (process_create_inv _ _ _ _ _ _ _ _ _ _ _ Ek Hc H) as (_ & _ & _ & [(_ & _ & _ & _ & ->)|Y]); [exists m; split; [exact M|reflexivity]|].
    destruct Y as (_ & _ & Ow & Ob & _ & _ & _ & _ & _ & mu & _ & _ & _ & Lo). apply (setting_same l); [|exact M].
    rewrite Lo; [split; reflexivity| |]; intros ->; apply (token_not_system _ T); congruence.
  - destruct (map i_key (c_infos c)) as [|r [|w [|a [|up [|wp [|s [|u' [|esc [|ta rest]]]]]]]]] eqn:Ek;
      try (unfold process_wrap in H; inv_ok; destruct (c_infos c) as [|? [|? [|? [|? [|? [|? [|? [|? [|? ?]]]]]]]]]; discriminate).
    destruct (process_wrap_inv _ _ _ _ _ _ _ _ _ _ _ _ _ _ _ Ek Hc H)
      as (_ & Tu & Tw & _ & _ & _ & et & um & ms & extra & l1 & msm & _ & _ & _ & _ & _ & _ & Ht & _ & _ & Hm).
    apply (setting_trans l1); [exact (transfer_setting _ _ _ _ _ _ _ _ _ _ _ _ _ _ _ _ _ I L Tu Ht M)|].
    intros m' M'. exact (mint_to_setting _ _ _ _ _ _ _ _ _ _ _ Hm M').
  - destruct (map i_key (c_infos c)) as [|esc [|r [|a [|u' [|wp [|up [|s [|w [|ta rest]]]]]]]]] eqn:Ek;
      try (unfold process_unwrap in H; inv_ok; destruct (c_infos c) as [|? [|? [|? [|? [|? [|? [|? [|? [|? ?]]]]]]]]]; discriminate).
    destruct (process_unwrap_inv _ _ _ _ _ _ _ _ _ _ _ _ _ _ _ Ek Hc H)
      as (_ & Tu & Tw & _ & _ & _ & msk & msb & l1 & um & extra & ms & _ & Cp & Hb & _ & _ & _ & Ht).
    pose proof (plain_unsigned _ _ NS Cp) as NM.
    pose proof (changes_inv _ _ _ _ _ I Tw NM (changes_burn _ _ _ _ _ _ _ _ _ _ Hb) (conserves_burn _ _ _ _ _ _ _ _ _ _ Hb)) as I1.
    apply (setting_trans l1); [exact (burn_setting _ _ _ _ _ _ _ _ _ _ _ _ Hb M)|].
    intros m' M'. exact (transfer_setting _ _ _ _ _ _ _ _ _ _ _ _ _ _ _ _ _ I1 L Tu Ht M').
  - destruct (map i_key (c_infos c)) as [|esc [|d [|u' [|w [|a [|p rest]]]]]] eqn:Ek;
      try (unfold process_close_stuck_escrow in H; destruct (c_infos c) as [|? [|? [|? [|? [|? [|? ?]]]]]]; discriminate).
    destruct (process_close_inv _ _ _ _ _ _ _ _ _ _ _ Ek Hc H) as (Oe & _ & _ & _ & He & et & m1 & msc & Ue & _ & Za & Se & _ & _ & _ & _ & _ & Ht).
    apply pod_unpack_tok_inv in Ue. destruct Ue as [De _].
    destruct (tok_close_tok_inv _ _ _ _ _ _ _ _ _ _ De Ht) as (Ned & _ & _ & _ & _ & _ & _ & Le' & Ld & Lo).
    assert (N1 : u <> esc) by (clear - D De; intros ->; congruence).
    apply (setting_same l); [|exact M]. destruct (pk_dec u d) as [->|N2]; [rewrite Ld|rewrite Lo by assumption]; split; reflexivity.
  - destruct (map i_key (c_infos c)) as [|w [|a [|u' [|p rest]]]] eqn:Ek;
      try (unfold process_sync_metadata_to_token_2022 in H; destruct (c_infos c) as [|? [|? [|? [|? ?]]]]; discriminate).
    destruct (process_sync_t22_inv _ _ _ _ _ _ _ _ _ Ek Hc H) as (_ & Ow & _ & _ & um & m1 & _ & Um & Y).
    apply pod_unpack_mint_inv in Um. destruct Um as [Dm _]. destruct (pk_dec u w) as [->|N].
    + pose proof M as (_ & _ & Hi). assert (m1 = m) by (clear - D Dm; congruence). subst m1.
      destruct Y as [(t & _ & Lo & len & _ & Lw)|(_ & _ & _ & Lo & Lw)].
      * eexists. split; [split; [rewrite Lw; exact O|split; [rewrite Lw; reflexivity|exact Hi]]|]. unfold setting. cbn [m_exts set_mexts]. apply md_setting.
      * cbv zeta in Lw. eexists. split; [split; [rewrite Lw; exact O|split; [rewrite Lw; reflexivity|exact Hi]]|]. unfold setting. cbn [m_exts set_mexts]. apply md_append_setting.
    + apply (setting_same l); [|exact M]. destruct Y as [(t & _ & Lo & _)|(_ & _ & _ & Lo & _)]; rewrite (Lo _ N); split; reflexivity.
  - destruct (map i_key (c_infos c)) as [|md [|a [|w [|u' [|x [|sy [|rn rest]]]]]]] eqn:Ek;
      try (unfold process_sync_metadata_to_spl_token in H; destruct (c_infos c) as [|? [|? [|? [|? [|? [|? [|? ?]]]]]]]; discriminate).
    destruct (process_sync_spl_inv _ _ _ _ _ _ _ _ _ _ _ _ Ek Hc H) as (_ & _ & _ & _ & _ & _ & um & d & _ & _ & Y).
    apply (setting_same l); [|exact M].
    destruct Y as [(_ & Om & _ & Oa & _ & _ & m1 & _ & _ & ->)|(_ & Om & old & _ & _ & _ & _ & ->)]; cbv zeta.
    + assert (N1 : u <> md) by (intros ->; rewrite Om in O; discriminate O). assert (N2 : u <> a) by (intros ->; rewrite Oa in O; discriminate O).
      rewrite !upd_other by congruence. split; reflexivity.
    + assert (N1 : u <> md) by (intros ->; rewrite Om in O; discriminate O). rewrite !upd_other by congruence. split; reflexivity.
  - destruct (map i_key (c_infos c)) as [|a [|p [|u' [|x rest]]]] eqn:Ek;
      try (unfold process_set_canonical_pointer in H; destruct (c_infos c) as [|? [|? [|? [|? ?]]]]; discriminate).
    destruct (process_set_pointer_inv _ _ _ _ _ _ _ _ _ _ Ek Hc H) as (_ & _ & _ & _ & _ & Op & _ & Lo).
    apply (setting_same l); [|exact M]. rewrite Lo; [split; reflexivity|].
    intros ->. destruct Op as [(_ & Op & _)|(_ & Op)]; rewrite Op in O; discriminate O.
Qed.
Lemma step_setting e0 a l l' u m : Inv e0 l -> step e0 a l l' -> mint_account l u t22_id m -> upheld (consented a l t22_id) m l' u.
Proof.
  intros I S M. pose proof M as (O & _). assert (T : token_program t22_id) by (right; reflexivity).
  destruct S as [e accounts input l l' L NS Ru|e p cpi accounts ix l l' L Tp NS Y|e p wallet mnt l l' L Tp Y|l l' W]; cbn [consented].
  - pose proof L as [C _]. unfold runs, process_instruction in Ru. apply bind_ok in Ru. destruct Ru as (i & Ei & H).
    apply same_upheld. exact (instr_setting e (mkCtx tw_id accounts) _ l l' u m (Inv_curve _ _ _ C I) (lawful_self _ _ L) NS eq_refl H M).
  - apply tok_exec_changes in Y. destruct Y as (l3 & C & H). pose proof (changes_setting _ _ _ _ _ _ C M) as U3.
    apply (upheld_mono _ (signed_by accounts l t22_id)) in U3; [|intros f Q; eapply signed_for_signed_by; [|exact Q]; auto].
    destruct H as [->|(m1 & mnt & n & _ & _ & H)]; [exact U3|].
    destruct U3 as [(m' & M' & U3)|U3]; [left|right; exact U3]. exists m'. split; [|exact U3].
    pose proof M' as (O' & D' & I'). destruct (hook_same _ _ _ _ _ _ _ _ _ L H (or_introl eq_refl) O') as [A B].
    split; [congruence|]. split; [congruence|exact I'].
  - apply same_upheld. exact (setting_same _ _ _ _ (ata_token _ _ _ _ _ _ _ _ T Y O) M).
  - apply same_upheld. exact (setting_same _ _ _ _ (world_token _ _ _ _ T W O) M).
Qed.
End Rule.

(** C76: what anybody does leaves a Token-2022 mint in place, with all its settings as they were, except for what the authority of the
    setting itself consented to - and except that the close authority may close a mint without tokens.  In particular no instruction of
    token-wrap changes a setting, whatever accounts it is given. *)
Theorem C76_settings : forall e0 a l l' u m,
  reachable e0 l -> step e0 a l l' -> mint_account l u t22_id m ->
  (exists m', mint_account l' u t22_id m' /\
     (setting pausable_of m' = setting pausable_of m \/ exists f b, setting pausable_of m = Some (Some f, b) /\ consented a l t22_id f) /\
     (setting hook_of m' = setting hook_of m \/ exists f p, setting hook_of m = Some (Some f, p) /\ consented a l t22_id f) /\
     (setting delegate_of m' = setting delegate_of m \/ exists f, setting delegate_of m = Some (Some f) /\ consented a l t22_id f) /\
     (setting closer_of m' = setting closer_of m \/ exists f, setting closer_of m = Some (Some f) /\ consented a l t22_id f)) \/
  (exists f, setting closer_of m = Some (Some f) /\ m_supply m = 0 /\ consented a l t22_id f).
Proof.
  intros e0 a l l' u m R S M. pose proof (reachable_inv _ _ R) as I.
  assert (CL : forall f, ext_close_authority m = Some f -> setting closer_of m = Some (Some f)).
  { intros f E. unfold ext_close_authority in E. unfold setting. change (find_map closer_of (m_exts m)) with (find_map (fun e => match e with MxMintCloseAuthority a => Some a | _ => None end) (m_exts m)).
    destruct (find_map _ (m_exts m)) as [[x|]|]; try discriminate E. injection E as ->. reflexivity. }
  destruct (step_setting _ _ rule_pausable e0 a l l' u m I S M) as [(m1 & M1 & U1)|(f & A & B & E)]; [|right; exists f; auto].
  destruct (step_setting _ _ rule_hook e0 a l l' u m I S M) as [(m2 & M2 & U2)|(f & A & B & E)]; [|right; exists f; auto].
  destruct (step_setting _ _ rule_delegate e0 a l l' u m I S M) as [(m3 & M3 & U3)|(f & A & B & E)]; [|right; exists f; auto].
  destruct (step_setting _ _ rule_closer e0 a l l' u m I S M) as [(m4 & M4 & U4)|(f & A & B & E)]; [|right; exists f; auto].
  assert (m2 = m1 /\ m3 = m1 /\ m4 = m1) as (-> & -> & ->).
  { destruct M1 as (_ & D1 & _), M2 as (_ & D2 & _), M3 as (_ & D3 & _), M4 as (_ & D4 & _). clear - D1 D2 D3 D4. repeat split; congruence. }
  left. exists m1. split; [exact M1|]. split; [|split; [|split]].
  - destruct U1 as [U|([x b] & f & A & B & E)]; [left; exact U|right]. cbn [fst] in B. rewrite B in A. exists f, b. auto.
  - destruct U2 as [U|([x b] & f & A & B & E)]; [left; exact U|right]. cbn [fst] in B. rewrite B in A. exists f, b. auto.
  - destruct U3 as [U|(v & f & A & B & E)]; [left; exact U|right]. rewrite B in A. exists f. auto.
  - destruct U4 as [U|(v & f & A & B & E)]; [left; exact U|right]. rewrite B in A. exists f. auto.
Qed.
Print Assumptions C76_settings.
Theorem C76_token_wrap : forall e0 e accounts input l l' u m,
  reachable e0 l -> lawful e0 e -> no_tw_signer accounts -> runs e accounts input l l' -> mint_account l u t22_id m ->
  exists m', mint_account l' u t22_id m' /\ setting pausable_of m' = setting pausable_of m /\ setting hook_of m' = setting hook_of m /\
    setting delegate_of m' = setting delegate_of m /\ setting closer_of m' = setting closer_of m.
Proof.
  intros e0 e accounts input l l' u m R L NS Ru M. pose proof L as [C _]. pose proof (Inv_curve _ _ _ C (reachable_inv _ _ R)) as I. pose proof (lawful_self _ _ L) as Le.
  unfold runs, process_instruction in Ru. apply bind_ok in Ru. destruct Ru as (i & Ei & H).
  destruct (instr_setting _ _ rule_pausable e (mkCtx tw_id accounts) _ l l' u m I Le NS eq_refl H M) as (m1 & M1 & U1).
  destruct (instr_setting _ _ rule_hook e (mkCtx tw_id accounts) _ l l' u m I Le NS eq_refl H M) as (m2 & M2 & U2).
  destruct (instr_setting _ _ rule_delegate e (mkCtx tw_id accounts) _ l l' u m I Le NS eq_refl H M) as (m3 & M3 & U3).
  destruct (instr_setting _ _ rule_closer e (mkCtx tw_id accounts) _ l l' u m I Le NS eq_refl H M) as (m4 & M4 & U4).
  assert (m2 = m1 /\ m3 = m1 /\ m4 = m1) as (-> & -> & ->).
  { destruct M1 as (_ & D1 & _), M2 as (_ & D2 & _), M3 as (_ & D3 & _), M4 as (_ & D4 & _). clear - D1 D2 D3 D4. repeat split; congruence. }
  exists m1. auto.
Qed.
Print Assumptions C76_token_wrap.

(** ** A paused mint stops Wrap and Unwrap *)
Definition paused (l : ledger) (u : pubkey) : Prop := exists m a, mint_account l u t22_id m /\ setting pausable_of m = Some (a, true).
Lemma paused_ext m a : setting pausable_of m = Some (a, true) -> ext_paused m = true.
Proof.
  unfold setting, ext_paused. induction (m_exts m) as [|x r IH]; cbn [find_map]; [discriminate|].
  destruct x; cbn [pausable_of]; try exact IH. intro E. injection E as _ ->. reflexivity.
Qed.
Theorem C76_wrap_refused : forall e accounts n l l' r w a up wp s u esc ta,
  n < two64 -> keys_are accounts [r; w; a; up; wp; s; u; esc; ta] -> paused l u -> ~ succeeds e accounts (Wrap n) l l'.
Proof.
  intros e accounts n l l' r w a up wp s u esc ta Hn K (m & x & (_ & D & _) & E) S.
  destruct (wrap_inv _ _ _ _ _ _ _ _ _ _ _ _ _ _ Hn K S) as (_ & _ & _ & _ & _ & _ & et & um & ms & extra & l1 & msm & _ & _ & _ & _ & _ & _ & Ht & _ & _ & _).
  apply transfer_checked_inv in Ht. destruct Ht as (s0 & m0 & fee & s1 & _ & _ & _ & _ & Um & _ & _ & Pa & _).
  apply unpack_mint_inv in Um. destruct Um as (Dm & _). assert (m0 = m) by congruence. subst m0. rewrite (paused_ext _ _ E) in Pa. discriminate Pa.
Qed.
Print Assumptions C76_wrap_refused.
Theorem C76_unwrap_refused : forall e accounts n l l' esc r a u wp up s w ta,
  n < two64 -> keys_are accounts [esc; r; a; u; wp; up; s; w; ta] -> paused l u -> ~ succeeds e accounts (Unwrap n) l l'.
Proof.
  intros e accounts n l l' esc r a u wp up s w ta Hn K (m & x & M & E) S.
  destruct (unwrap_inv _ _ _ _ _ _ _ _ _ _ _ _ _ _ Hn K S) as (_ & _ & _ & _ & _ & _ & msk & msb & l1 & um & extra & ms & _ & _ & Hb & _ & _ & _ & Ht).
  destruct (burn_setting pausable_of _ _ _ _ _ _ _ _ _ _ _ _ Hb M) as (m1 & (_ & D1 & _) & E1). rewrite E in E1.
  apply transfer_checked_inv in Ht. destruct Ht as (s0 & m0 & fee & s1 & _ & _ & _ & _ & Um & _ & _ & Pa & _).
  apply unpack_mint_inv in Um. destruct Um as (Dm & _). assert (m0 = m1) by congruence. subst m0. rewrite (paused_ext _ _ E1) in Pa. discriminate Pa.
Qed.
Print Assumptions C76_unwrap_refused.

(** ** ... until the pause authority acts *)
(** Whoever may unpause mint [u] at the time, or close it, consents to none of the actions. *)
Definition never_unpaused (acts : list (action * ledger)) (u : pubkey) : Prop :=
  forall a x m f, In (a, x) acts -> mint_account x u t22_id m ->
    (exists b, setting pausable_of m = Some (Some f, b)) \/ (setting closer_of m = Some (Some f) /\ m_supply m = 0) -> ~ consented a x t22_id f.
(** C76: whoever does whatever for however long: while the pause authority does not act (nor the close authority, once no token is left),
    the paused mint stays paused, and nobody wraps or unwraps its tokens. *)
Theorem C76_hostage : forall e0 acts l l' u,
  reachable e0 l -> course e0 acts l l' -> paused l u -> never_unpaused acts u ->
  paused l' u /\
  (forall e accounts n r w a up wp s esc ta z, n < two64 -> keys_are accounts [r; w; a; up; wp; s; u; esc; ta] -> ~ succeeds e accounts (Wrap n) l' z) /\
  (forall e accounts n esc r a wp up s w ta z, n < two64 -> keys_are accounts [esc; r; a; u; wp; up; s; w; ta] -> ~ succeeds e accounts (Unwrap n) l' z).
Proof.
  intros e0 acts l l' u R C Pa NU.
  assert (F : paused l' u).
  { revert R Pa NU. induction C as [l|a l l1 acts l' S C IH]; intros R Pa NU; [exact Pa|].
    assert (R1 : reachable e0 l1) by (destruct R as [past H]; exists (l :: past); exact (h_step _ _ _ _ _ H S)).
    apply (IH R1); [|intros b x m f Hb; apply (NU b x m f); right; exact Hb].
    destruct Pa as (m & au & M & E).
    destruct (C76_settings e0 a l l1 u m R S M) as [(m' & M' & [E'|(f & b & E' & Cf)] & _)|(f & E' & Z & Cf)].
    - exists m', au. split; [exact M'|congruence].
    - exfalso. apply (NU a l m f (or_introl eq_refl) M); [left; exists b; exact E'|exact Cf].
    - exfalso. apply (NU a l m f (or_introl eq_refl) M); [right; split; assumption|exact Cf]. }
  split; [exact F|]. split.
  - intros e accounts n r w a up wp s esc ta z Hn K. exact (C76_wrap_refused e accounts n l' z r w a up wp s u esc ta Hn K F).
  - intros e accounts n esc r a wp up s w ta z Hn K. exact (C76_unwrap_refused e accounts n l' z esc r a u wp up s w ta Hn K F).
Qed.
Print Assumptions C76_hostage.
(** C76: if at some point the mint was paused, had no pause authority and nobody could close it, then in every later state it is paused and
    nobody wraps or unwraps its tokens. *)
Theorem C76_forever : forall e0 past l x u m,
  history e0 past l -> In x (l :: past) -> mint_account x u t22_id m ->
  setting pausable_of m = Some (None, true) -> (forall f, setting closer_of m <> Some (Some f)) ->
  paused l u /\
  (forall e accounts n r w a up wp s esc ta z, n < two64 -> keys_are accounts [r; w; a; up; wp; s; u; esc; ta] -> ~ succeeds e accounts (Wrap n) l z) /\
  (forall e accounts n esc r a wp up s w ta z, n < two64 -> keys_are accounts [esc; r; a; u; wp; up; s; w; ta] -> ~ succeeds e accounts (Unwrap n) l z).
Proof.
  intros e0 past l x u m H Hx M E Cl.
  assert (F : exists m', mint_account l u t22_id m' /\ setting pausable_of m' = Some (None, true) /\ forall f, setting closer_of m' <> Some (Some f)).
  { induction H as [l G|past l a l' H IH S]; [destruct Hx as [<-|[]]; exists m; auto|].
    destruct Hx as [<-|Hx]; [exists m; auto|]. destruct (IH Hx) as (m1 & M1 & E1 & C1).
    assert (R : reachable e0 l) by (exists past; exact H).
    destruct (C76_settings e0 a l l' u m1 R S M1) as [(m' & M' & P' & _ & _ & C')|(f & Q & _)]; [|exfalso; exact (C1 f Q)].
    exists m'. split; [exact M'|]. split.
    - destruct P' as [P'|(f & b & P' & _)]; [congruence|exfalso; congruence].
    - destruct C' as [C'|(f & C' & _)]; [rewrite C'; exact C1|exfalso; exact (C1 f C')]. }
  destruct F as (m' & M' & E' & _). assert (F : paused l u) by (exists m', None; auto). split; [exact F|]. split.
  - intros e accounts n r w a up wp s esc ta z Hn K. exact (C76_wrap_refused e accounts n l z r w a up wp s u esc ta Hn K F).
  - intros e accounts n esc r a wp up s w ta z Hn K. exact (C76_unwrap_refused e accounts n l z esc r a u wp up s w ta Hn K F).
Qed.
Print Assumptions C76_forever.
(** C76: what a mint without close authority does not have, it never gets: a permanent delegate, a pause switch, a transfer hook. *)
Theorem C76_never_added : forall e0 past l x u m,
  history e0 past l -> In x (l :: past) -> mint_account x u t22_id m -> (forall f, setting closer_of m <> Some (Some f)) ->
  exists m', mint_account l u t22_id m' /\ (forall f, setting closer_of m' <> Some (Some f)) /\
    (setting pausable_of m = None -> setting pausable_of m' = None) /\ (setting hook_of m = None -> setting hook_of m' = None) /\
    (setting delegate_of m = None -> setting delegate_of m' = None).
Proof.
  intros e0 past l x u m H Hx M Cl. induction H as [l G|past l a l' H IH S]; [destruct Hx as [<-|[]]; exists m; auto|].
  destruct Hx as [<-|Hx]; [exists m; auto|]. destruct (IH Hx) as (m1 & M1 & C1 & P1 & H1 & D1).
  assert (R : reachable e0 l) by (exists past; exact H).
  destruct (C76_settings e0 a l l' u m1 R S M1) as [(m' & M' & P' & H' & D' & C')|(f & Q & _)]; [|exfalso; exact (C1 f Q)].
  exists m'. split; [exact M'|]. split; [destruct C' as [C'|(f & C' & _)]; [rewrite C'; exact C1|exfalso; exact (C1 f C')]|]. split; [|split].
  - intro Q. specialize (P1 Q). destruct P' as [P'|(f & b & P' & _)]; [congruence|exfalso; congruence].
  - intro Q. specialize (H1 Q). destruct H' as [H'|(f & b & H' & _)]; [congruence|exfalso; congruence].
  - intro Q. specialize (D1 Q). destruct D' as [D'|(f & D' & _)]; [congruence|exfalso; congruence].
Qed.
Print Assumptions C76_never_added.

(** ** The hypotheses are met *)
(** A pausable Token-2022 mint, wrapped as SPL Token: 40 tokens wrapped, 10 unwrapped again; then the mint is paused. *)
Definition d_pauser : pubkey := PkRaw 706.
Definition d_pausable (b : bool) : mint_ext := MxPausable (Some d_pauser) b.
Definition pause_setup : list cmd :=
  [ CFund d_alice 5000; CFund (d_w spl_token_id) 4000; CFund (d_b spl_token_id) 4000;
    CAlloc d_u (mint_space [d_pausable false]) 9000 t22_id;
    CTok t22_id [meta_w d_u false] (TiInitExt (d_pausable false));
    CTok t22_id [meta_w d_u false] (TiInitializeMint2 6 d_mintauth None);
    CTw x_create; CFund (d_esc t22_id spl_token_id) 5000; CAta t22_id (d_a spl_token_id) d_u;
    CAlloc d_alice_u (tok_space [AxPausableAccount]) 5000 t22_id; CAlloc d_alice_w 165 5000 spl_token_id; CAlloc d_bob_w 165 5000 spl_token_id;
    CTok t22_id [meta_w d_alice_u false; meta_r d_u false] (TiInitializeAccount d_alice false);
    CTok spl_token_id [meta_w d_alice_w false; meta_r (d_w spl_token_id) false] (TiInitializeAccount d_alice false);
    CTok spl_token_id [meta_w d_bob_w false; meta_r (d_w spl_token_id) false] (TiInitializeAccount d_bob false);
    CTok t22_id [meta_w d_u false; meta_w d_alice_u false; meta_r d_mintauth true] (TiMintTo 1000);
    CTw (x_wrap 40); CTw (x_unwrap 10) ].
Definition do_pause : cmd := CTok t22_id [meta_w d_u false; meta_r d_pauser true] (TiUpdateExt (MxPausable (Some d_pauser) true)).
Definition do_renounce : cmd := CTok t22_id [meta_w d_u false; meta_r d_pauser true] (TiUpdateExt (MxPausable None true)).
Definition paused_story : list cmd := pause_setup ++ [do_pause].
Definition dead_story : list cmd := pause_setup ++ [do_pause; do_renounce].
Definition do_unpause : cmd := CTok t22_id [meta_w d_u false; meta_r d_pauser true] (TiUpdateExt (MxPausable (Some d_pauser) false)).
(** Before the pause Alice can unwrap 20 tokens; and once more after the pause authority has ended the pause. *)
Example C76_example : playable (pause_setup ++ [CTw (x_unwrap 20)]) = true /\ playable (paused_story ++ [CTw (x_unwrap 20)]) = false /\
  playable (paused_story ++ [do_unpause; CTw (x_unwrap 20)]) = true.
Proof. split; [vm_compute; reflexivity|]. split; [vm_compute; reflexivity|vm_compute; reflexivity]. Qed.
(** C76, refuted: "while the issuer has paused the token, it does not circulate".  The wrapped mint is not pausable: Alice pays Bob with 20
    wrapped tokens while the unwrapped mint is paused.  But nobody can unwrap: the pause authority has not acted. *)
Definition pay_bob : list info := [meta_w d_alice_w false; meta_r (d_w spl_token_id) false; meta_w d_bob_w false; meta_r d_alice true].
Theorem C76_bypass_refuted : exists acts l l',
  reachable demo_env l /\ paused l d_u /\ course demo_env acts l l' /\ never_unpaused acts d_u /\
  balance l d_bob_w = 0 /\ balance l' d_bob_w = 20 /\ paused l' d_u /\
  forall e accounts n esc r a wp up s w ta z, n < two64 -> keys_are accounts [esc; r; a; d_u; wp; up; s; w; ta] -> ~ succeeds e accounts (Unwrap n) l' z.
Proof.
  destruct (last_step paused_story (CTok spl_token_id pay_bob (TiTransferChecked 20 6))) as [R Nx]; [vm_compute; reflexivity|]. clear Nx.
  destruct (tok_exec demo_env spl_token_id false pay_bob (TiTransferChecked 20 6) (now_of paused_story)) as [l'|err] eqn:E1.
  2: { exfalso. assert (K : match tok_exec demo_env spl_token_id false pay_bob (TiTransferChecked 20 6) (now_of paused_story) with Ok _ => true | Err _ => false end = true) by (vm_compute; reflexivity).
       rewrite E1 in K. discriminate K. }
  assert (B : balance l' d_bob_w = 20).
  { assert (K : match tok_exec demo_env spl_token_id false pay_bob (TiTransferChecked 20 6) (now_of paused_story) with Ok y => balance y d_bob_w =? 20 | Err _ => false end = true) by (vm_compute; reflexivity).
    rewrite E1 in K. apply N.eqb_eq in K. exact K. }
  assert (CO : course demo_env [(ATokenProgram demo_env spl_token_id false pay_bob (TiTransferChecked 20 6), now_of paused_story)] (now_of paused_story) l').
  { eapply co_step; [apply st_token_program; [exact demo_lawful|left; reflexivity|apply unsignedb_true; vm_compute; reflexivity|exact E1]|]. apply co_end. }
  assert (Pa : paused (now_of paused_story) d_u).
  { exists (some_mint (a_data (now_of paused_story d_u))), (Some d_pauser). split; [|vm_compute; reflexivity].
    unfold mint_account, mint_data. split; [vm_compute; reflexivity|]. split; [vm_compute; reflexivity|vm_compute; reflexivity]. }
  assert (NU : never_unpaused [(ATokenProgram demo_env spl_token_id false pay_bob (TiTransferChecked 20 6), now_of paused_story)] d_u).
  { intros a x m f [Q|[]] (_ & D & _) F. apply pair_equal_spec in Q. destruct Q as [<- <-].
    assert (K1 : match a_data (now_of paused_story d_u) with DMint m => setting pausable_of m = Some (Some d_pauser, true) | _ => False end) by (vm_compute; reflexivity).
    assert (K2 : match a_data (now_of paused_story d_u) with DMint m => setting closer_of m = None | _ => False end) by (vm_compute; reflexivity).
    rewrite D in K1, K2. assert (f = d_pauser) by (clear - K1 K2 F; destruct F as [[b F]|[F _]]; congruence). subst f.
    apply not_signed_by; [vm_compute; reflexivity|]. intros ms Q.
    assert (K : match a_data (now_of paused_story d_pauser) with DMultisig _ => false | _ => true end = true) by (vm_compute; reflexivity). rewrite Q in K. discriminate K. }
  destruct (C76_hostage demo_env _ _ _ d_u R CO Pa NU) as (Pa' & _ & U).
  exists [(ATokenProgram demo_env spl_token_id false pay_bob (TiTransferChecked 20 6), now_of paused_story)], (now_of paused_story), l'.
  split; [exact R|]. split; [exact Pa|]. split; [exact CO|]. split; [exact NU|]. split; [vm_compute; reflexivity|]. split; [exact B|]. split; [exact Pa'|exact U].
Qed.
Print Assumptions C76_bypass_refuted.
(** C76, a loss: the pause authority pauses the token and gives up its power.  30 wrapped tokens are backed by 30 tokens, and nobody will
    ever redeem them. *)
Theorem C76_locked_refuted : exists past l,
  history demo_env past l /\ supply l (d_w spl_token_id) = 30 /\ balance l (d_esc t22_id spl_token_id) = 30 /\ balance l d_alice_w = 30 /\
  forall past' z, history demo_env past' z -> In l (z :: past') ->
    forall e accounts n esc r a wp up s w ta z', n < two64 -> keys_are accounts [esc; r; a; d_u; wp; up; s; w; ta] -> ~ succeeds e accounts (Unwrap n) z z'.
Proof.
  exists (past_of dead_story), (now_of dead_story). split; [apply played_history; vm_compute; reflexivity|].
  split; [vm_compute; reflexivity|]. split; [vm_compute; reflexivity|]. split; [vm_compute; reflexivity|].
  intros past' z H Hx.
  destruct (C76_forever demo_env past' z (now_of dead_story) d_u (some_mint (a_data (now_of dead_story d_u))) H Hx) as (_ & _ & U).
  - unfold mint_account, mint_data. split; [vm_compute; reflexivity|]. split; [vm_compute; reflexivity|vm_compute; reflexivity].
  - vm_compute. reflexivity.
  - intros f Q. vm_compute in Q. discriminate Q.
  - exact U.
Qed.
Print Assumptions C76_locked_refuted.
