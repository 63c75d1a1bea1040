(** * PropCustody.v — C62: nobody takes, gives away, freezes or closes a holder's wrapped tokens without
    the consent of whoever has that power over the account itself.

    Whatever the unwrapped mint's issuer may do with the unwrapped tokens (permanent delegate, fees, hooks,
    pausing), and whatever instruction of token-wrap, of the token programs or of any other program runs:
    wrapped tokens leave an account only with the consent of its owner or delegate. *)
From Verif Require Import Base Codec State Pda TokenProg Cpi Ata Meta Processor Tac PdaProofs TokProofs FrameProofs ProcProofs
  Spec SpecLemmas WrapProofs CreateProofs MapProofs SyncProofs SyncProofs2 CloseProofs InvTok InvCons HistorySpec InvState InvTw InvHist EscProofs
  Builders Demo Demo2 DemoHist.

(** ** Vocabulary *)

(** [who] consented to the action: it signed, or it is a multisig of token program [p] enough of whose
    members signed. *)
Definition consented (a : action) (l : ledger) (p who : pubkey) : Prop :=
  match a with
  | ATokenWrap _ accounts _ => signed_by accounts l p who
  | ATokenProgram _ _ _ accounts _ => signed_by accounts l p who
  | AAssociated _ _ _ _ | AWorld => False
  end.
(** The transfer hooks that run during the action, if any, leave account [k] alone. *)
Definition hooks_spare (a : action) (k : pubkey) : Prop :=
  match a with
  | ATokenWrap e _ _ | ATokenProgram e _ _ _ _ =>
      forall p ms n l l', e_hook e p ms n l = Ok l' -> a_data (l' k) = a_data (l k) /\ a_owner (l' k) = a_owner (l k)
  | AAssociated _ _ _ _ | AWorld => True
  end.
(** Not an escrow account of token-wrap (escrows pay out to Unwrap: see C18). *)
Definition not_escrow (e0 : env) (k : pubkey) : Prop := forall u utp wtp, k <> escrow_of e0 u utp wtp.

(** [in_custody C p l k t l']: the token account [k] (of program [p], holding [t]) is still there in [l'],
    and whatever was done to it was consented to ([C]) by those who may; or it was empty and has been closed. *)
Definition in_custody (C : pubkey -> Prop) (p : pubkey) (l : ledger) (k : pubkey) (t : tokacc) (l' : ledger) : Prop :=
  (exists t', token_account l' k p t' /\ t_mint t' = t_mint t /\
     (t_amount t' < t_amount t -> C (t_owner t) \/
        exists d, t_delegate t = Some d /\ C d /\ t_amount t - t_amount t' <= t_delegated t - t_delegated t') /\
     (t_delegated t < t_delegated t' -> C (t_owner t)) /\
     (confidential_of (t_exts t') < confidential_of (t_exts t) -> C (t_owner t)) /\
     (cpi_guard_locked t' <> cpi_guard_locked t \/ memo_required t' <> memo_required t -> C (t_owner t)) /\
     (t_owner t' <> t_owner t -> C (t_owner t)) /\
     (t_delegate t' <> t_delegate t -> t_delegate t' <> None -> C (t_owner t)) /\
     (t_close t' <> t_close t -> C (t_owner t) \/ exists c, t_close t = Some c /\ C c) /\
     (t_state t' <> t_state t -> exists m a, a_data (l (t_mint t)) = DMint m /\ m_freeze m = Some a /\ C a)) \/
  (unallocated l' k /\ t_amount t = 0 /\ confidential_of (t_exts t) = 0 /\ (C (t_owner t) \/ exists c, t_close t = Some c /\ C c)).

(** ** Proofs *)
Lemma custody_mono (C D : pubkey -> Prop) p l k t l' : (forall who, C who -> D who) -> in_custody C p l k t l' -> in_custody D p l k t l'.
Proof.
  intros M [(t' & T & Mt & A & Al & A2 & A3 & B & E & F & G)|(U & Z & Z2 & B)].
  - left. exists t'. split; [exact T|]. split; [exact Mt|]. repeat split.
    + intro X. destruct (A X) as [Y|(d & Y & Y' & Y'')]; [left; auto|right; eauto].
    + auto.
    + auto.
    + auto.
    + auto.
    + auto.
    + intro X. destruct (F X) as [Y|(d & Y & Y')]; [left; auto|right; eauto].
    + intro X. destruct (G X) as (m & a & Y & Y' & Y''). eauto 6.
  - right. split; [exact U|]. split; [exact Z|]. split; [exact Z2|]. destruct B as [Y|(d & Y & Y')]; [left; auto|right; eauto].
Qed.
Lemma custody_same C p l k t l' : token_account l k p t -> same_do (l k) (l' k) -> in_custody C p l k t l'.
Proof.
  intros (O & D & S) [D' O']. left. exists t. split; [repeat split; congruence|]. split; [reflexivity|].
  repeat split; intro X; (exfalso; (lia || congruence || (destruct X; congruence))).
Qed.
(** Credits: everything else stays. *)
Definition calm_at (k : pubkey) (l l' : ledger) : Prop :=
  same_do (l k) (l' k) \/
  exists t t', a_data (l k) = DTok t /\ a_data (l' k) = DTok t' /\ a_owner (l' k) = a_owner (l k) /\
    t_mint t' = t_mint t /\ t_owner t' = t_owner t /\ t_delegate t' = t_delegate t /\ t_close t' = t_close t /\
    t_delegated t' = t_delegated t /\ settings (t_exts t') = settings (t_exts t) /\
    t_state t' = t_state t /\ t_amount t <= t_amount t' /\ confidential_of (t_exts t') = confidential_of (t_exts t).
Lemma custody_calm C p l k t l1 l' : in_custody C p l k t l1 -> calm_at k l1 l' -> in_custody C p l k t l'.
Proof.
  intros [(t1 & (O & D & S) & Mt & A & Al & A2 & A5 & B & E & F & G)|((U1 & U2) & Z & Z2 & B)] Q.
  - destruct Q as [[D' O']|(t0 & t' & D0 & D' & O' & M' & W' & G' & X' & L' & Y' & S' & N' & K')].
    + left. exists t1. split; [repeat split; congruence|]. auto 14.
    + assert (t0 = t1) by congruence. subst t0. left. exists t'. split; [repeat split; congruence|]. split; [congruence|].
      destruct (settings_guard _ _ Y') as [Y1 Y2]. rewrite W', G', X', S', K', L', Y1, Y2. repeat split; auto. intro X. destruct A as [A|(d & A & A3 & A4)]; [lia|left; exact A|right].
      exists d. split; [exact A|]. split; [exact A3|lia].
  - destruct Q as [[D' O']|(t0 & t' & D0 & _)]; [|congruence]. right. split; [split; congruence|]. auto.
Qed.
Lemma calm_custody C p l k t l1 : token_account l k p t -> calm_at k l l1 -> in_custody C p l k t l1.
Proof. intros T Q. apply (custody_calm C p l k t l); [apply custody_same; [exact T|split; reflexivity]|exact Q]. Qed.

Lemma wrapped_no_delegate e0 l u p m : Inv e0 l -> a_data (l (wrapped_mint_of e0 u p)) = DMint m -> ext_permanent_delegate m = None.
Proof.
  intros I D. destruct (inv_pda _ _ _ I (is_tw_pda_wrapped e0 u p)) as [[B _]|[(u' & p' & _ & _ & _ & m' & D' & _ & _ & X)|[(u' & p' & _ & _ & _ & D')|(u' & v & _ & _ & D')]]]; try congruence.
  assert (m' = m) by congruence. subst m'. unfold ext_permanent_delegate.
  destruct X as [[[_ ->]|[_ ->]]|(_ & t & -> & _)]; reflexivity.
Qed.
Lemma wrapped_not_native e u p q : is_native_mint q (wrapped_mint_of e u p) = false.
Proof.
  unfold is_native_mint, wrapped_mint_of, pda. destruct (pk_eqb q spl_token_id); apply pk_eqb_neq; discriminate.
Qed.
Lemma changes_custody e0 p ms l l' u q k t :
  Inv e0 l -> token_program q -> changes p ms l l' -> token_account l k q t -> t_mint t = wrapped_mint_of e0 u q ->
  t_owner t <> system_id -> t_owner t <> incinerator_id ->
  in_custody (signed_for q l (is_sig ms)) q l k t l'.
Proof.
  intros I T C TA Mt N1 N2. pose proof TA as (O & D & S).
  destruct (C k) as [Q|(Op & _ & X)]; [exact (custody_same _ _ _ _ _ _ TA Q)|].
  assert (PQ : p = q) by congruence. rewrite <- PQ in *. clear PQ q. rewrite D in X.
  assert (T' : token_program (a_owner (l k))) by (rewrite O; exact T).
  pose proof (inv_tok _ _ _ _ I T' D) as (_ & _ & TN & _). rewrite O, Mt, (wrapped_not_native e0 u p p) in TN.
  assert (NAT : t_native t = None) by (destruct (t_native t); [exfalso; assert (false = true) by (apply TN; discriminate); discriminate|reflexivity]).
  remember (a_data (l' k)) as d' eqn:Ed. remember (a_owner (l' k)) as o' eqn:Eo.
  destruct X as [ | | | | | | | | | | | | |t0 t' E1 E2 E3 E4 [St [Cf Sk]] X|t0 E1 E2 E3 E4]; try discriminate; try match goal with H : unpack_uninit_mint _ = Ok _ |- _ => discriminate H end.
  - assert (t0 = t) by congruence. subst t0. left. exists t'.
    assert (St' : t_state t' <> Uninitialized) by (destruct St as [St|[St _]]; [congruence|exact St]).
    split; [split; [symmetry; exact Eo|]; split; [symmetry; exact Ed|exact St']|]. split; [exact E2|].
    assert (FR : t_state t' <> t_state t -> exists m a, a_data (l (t_mint t)) = DMint m /\ m_freeze m = Some a /\ signed_for p l (is_sig ms) a).
    { intro Q. destruct St as [St|[_ St]]; [contradiction|exact St]. }
    assert (CF' : confidential_of (t_exts t') < confidential_of (t_exts t) -> signed_for p l (is_sig ms) (t_owner t)).
    { intro Q. destruct Cf as [[Cf _]|Cf]; [lia|exact Cf]. }
    assert (CG : cpi_guard_locked t' <> cpi_guard_locked t \/ memo_required t' <> memo_required t -> signed_for p l (is_sig ms) (t_owner t)).
    { intro Q. destruct Cf as [[_ Cf]|Cf]; [|exact Cf]. destruct (settings_guard _ _ Cf) as [Y1 Y2]. destruct Q; contradiction. }
    assert (SK : t_delegated t' <= t_delegated t /\ t_amount t + t_delegated t' <= t_amount t' + t_delegated t \/ signed_for p l (is_sig ms) (t_owner t)).
    { destruct Sk as [Sk|[Sk|[[Sk|Sk]|(m & who & Q1 & Q2 & _)]]]; [left; exact Sk|right; exact Sk|contradiction|contradiction|].
      exfalso. rewrite Mt in Q1. rewrite (wrapped_no_delegate _ _ _ _ _ I Q1) in Q2. discriminate. }
    assert (AL : t_delegated t < t_delegated t' -> signed_for p l (is_sig ms) (t_owner t)) by (intro Q; destruct SK as [[SK _]|SK]; [lia|exact SK]).
    destruct X as [W Cl Dk Am _|who Sg Q W Cl Dk _|[Q|Q] _ _ _ _|Sg W _|Sg Dk _ _ Am|who Sg Q W Dk _ Am]; try contradiction.
    + repeat split; try exact AL; try exact CF'; try exact CG; try exact FR; try (intro Y; exfalso; (lia || congruence)). intros Y Y'. destruct Dk; congruence.
    + repeat split; try exact AL; try exact CF'; try exact CG; try exact FR; try (intro Y; exfalso; congruence).
      * intro Lt. destruct Q as [->|[Q|(m & Q1 & Q2 & _)]]; [left; exact Sg| |].
        { destruct SK as [[SK1 SK2]|SK]; [right; exists who; split; [exact Q|]; split; [exact Sg|lia]|left; exact SK]. }
        exfalso.
        rewrite Mt in Q1. rewrite (wrapped_no_delegate _ _ _ _ _ I Q1) in Q2. discriminate.
      * intros Y Y'. destruct Dk; congruence.
    + repeat split; auto.
    + repeat split; auto; intro Y; exfalso; lia.
    + repeat split; try exact AL; try exact CF'; try exact CG; try exact FR; try (intro Y; exfalso; (lia || congruence)).
      intros _. destruct Q as [Q|[_ ->]]; [right; eauto|left; exact Sg].
  - assert (t0 = t) by congruence. subst t0. right. split; [split; [symmetry; exact Ed|symmetry; exact Eo]|]. split; [exact (E2 NAT)|]. split; [exact E4|].
    destruct E3 as [[E3|E3]|E3]; try contradiction. destruct (t_close t) as [c|]; [right; eauto|left; exact E3].
Qed.

(** ** Hooks *)
Lemma foreign_t22 l l' k : foreign_steps l l' -> a_owner (l k) = t22_id -> same_do (l k) (l' k).
Proof.
  intro F. induction F as [l|e cpi ms ix l l1 l2 N X F IH|e wallet mnt l l1 l2 X F IH|l l1 l2 W F IH]; intro O.
  - split; reflexivity.
  - apply tok_exec_changes in X. destruct X as (l3 & C & H). assert (T : token_program spl_token_id) by (left; reflexivity).
    assert (l1 = l3).
    { destruct H as [H|(m & mnt & n & U & _ & H)]; [exact H|]. unfold run_hook in H. destruct (ext_hook m) as [q|] eqn:Q; [|congruence].
      pose proof (ext_hook_t22 _ _ _ _ T U Q). discriminate. }
    subst l3. destruct (C k) as [[S1 S2]|(O' & _)]; [|rewrite O in O'; discriminate].
    destruct (IH (eq_trans S2 O)) as [S3 S4]. split; congruence.
  - destruct (ata_created _ _ _ _ _ _ X) as (Lo & _).
    assert (Q : l1 k = l k).
    { apply Lo. intros ->. apply ata_create_inv in X. cbv zeta in X. destruct X as (m & l3 & O' & _). rewrite O in O'. discriminate. }
    rewrite <- Q. apply IH. rewrite Q. exact O.
  - destruct (W k) as (A & _). destruct (A (or_intror (or_introl O))) as (S1 & S2 & _).
    destruct (IH (eq_trans S2 O)) as [S3 S4]. split; congruence.
Qed.
Lemma hook_same e0 e m ms n l l' k q :
  lawful e0 e -> run_hook e m ms n l = Ok l' ->
  (q = t22_id \/ forall p ms n l l', e_hook e p ms n l = Ok l' -> a_data (l' k) = a_data (l k) /\ a_owner (l' k) = a_owner (l k)) ->
  a_owner (l k) = q -> same_do (l k) (l' k).
Proof.
  intros [_ L] H Q O. unfold run_hook in H. destruct (ext_hook m) as [p|]; [|inversion H; subst; split; reflexivity].
  destruct (e_hook e p ms n l) as [x|] eqn:E; [|discriminate]. cbn in H. destruct (balanced _ _ _); [|discriminate]. cbn in H. inversion H; subst l'.
  destruct Q as [->|Q]; [exact (foreign_t22 _ _ _ (L _ _ _ _ _ E) O)|].
  unfold confine. destruct (_ && _); [exact (Q _ _ _ _ _ E)|split; reflexivity].
Qed.
Definition spared (e : env) (k q : pubkey) : Prop :=
  q = t22_id \/ forall p ms n l l', e_hook e p ms n l = Ok l' -> a_data (l' k) = a_data (l k) /\ a_owner (l' k) = a_owner (l k).
Lemma custody_hook e0 e m ms n C l k t l3 l' q :
  lawful e0 e -> spared e k q -> token_account l k q t -> open_kept l l3 -> in_custody C q l k t l3 -> run_hook e m ms n l3 = Ok l' ->
  in_custody C q l k t l'.
Proof.
  intros L Sp (O & D & S) OP IC H. destruct (OP k t D) as [t3 D3].
  apply (custody_calm C q l k t l3 l' IC). left.
  destruct IC as [(t' & (O' & _) & _)|((U & _) & _)]; [|congruence].
  exact (hook_same _ _ _ _ _ _ _ _ _ L H Sp O').
Qed.
Lemma transfer_custody e0 e p cpi ms src mnt dst auth signers amount dec expf l l' u q k t :
  Inv e0 l -> lawful e0 e -> token_program q -> spared e k q -> token_account l k q t -> t_mint t = wrapped_mint_of e0 u q ->
  t_owner t <> system_id -> t_owner t <> incinerator_id ->
  tok_transfer_checked e p cpi ms src mnt dst auth signers amount dec expf l = Ok l' ->
  in_custody (signed_for q l (is_sig ms)) q l k t l'.
Proof.
  intros I L T Sp TA Mt N1 N2 H. apply changes_transfer_checked in H. destruct H as (m & l3 & _ & C & OP & H).
  pose proof (changes_custody _ _ _ _ _ _ _ _ _ I T C TA Mt N1 N2) as IC.
  destruct H as [->|H]; [exact IC|exact (custody_hook _ _ _ _ _ _ _ _ _ _ _ _ L Sp TA OP IC H)].
Qed.
(** A transfer is a credit for every account but its source. *)
Lemma transfer_calm e0 e p cpi ms src mnt dst auth signers amount dec expf l l' q k t :
  lawful e0 e -> spared e k q -> a_owner (l k) = q -> a_data (l k) = DTok t -> k <> src ->
  tok_transfer_checked e p cpi ms src mnt dst auth signers amount dec expf l = Ok l' -> calm_at k l l'.
Proof.
  intros L Sp O D Nk H. apply transfer_checked_inv in H.
  destruct H as (s & m & fee & s1 & _ & _ & _ & _ & _ & _ & _ & _ & _ & _ & _ & _ & [[_ ->]|(Hne & d & dx & l3 & Ud & _ & _ & _ & _ & _ & Hx & _ & _ & Mv & Hk)]).
  { left. split; reflexivity. }
  apply unpack_tok_inv in Ud. destruct Ud as (Dd & _). destruct (move_native_same _ _ _ _ _ _ _ _ Mv k) as [S1 S2].
  unfold transfer_ledger in S1, S2. cbv zeta in S1, S2.
  destruct (pk_dec dst k) as [E|N2].
  - subst k. rewrite upd_same in S1, S2. cbn [a_data a_owner with_data] in S1, S2. rewrite (upd_other l src _ dst) in S2 by exact Hne.
    assert (O3 : a_owner (l3 dst) = q) by congruence. destruct (hook_same _ _ _ _ _ _ _ _ _ L Hk Sp O3) as [H1 H2].
    right. exists d. eexists. split; [exact Dd|]. split; [rewrite H1, S1; reflexivity|]. split; [congruence|].
    do 5 (split; [reflexivity|]). cbn [t_amount set_amount set_texts t_exts].
    split; [destruct (fee =? 0); [subst; reflexivity|exact (settings_add _ _ _ Hx)]|]. split; [reflexivity|]. split; [lia|].
    destruct (fee =? 0); [subst; reflexivity|]. exact (proj2 (withheld_add_of _ _ _ Hx)).
  - left. rewrite upd_other in S1, S2 by exact N2. rewrite upd_other in S1, S2 by congruence.
    assert (O3 : a_owner (l3 k) = q) by congruence. destruct (hook_same _ _ _ _ _ _ _ _ _ L Hk Sp O3) as [H1 H2]. split; congruence.
Qed.
Lemma burn_open p cpi ms src mnt auth signers amount l l' : tok_burn p cpi ms src mnt auth signers amount l = Ok l' -> open_kept l l'.
Proof.
  intros H k t D. apply burn_inv in H. destruct H as (s & m & s1 & _ & Um & _ & _ & _ & _ & _ & _ & _ & _ & Hne & _ & _ & ->).
  apply unpack_mint_inv in Um. destruct Um as (Dm & _).
  rewrite upd_other by (intros ->; congruence). destruct (pk_dec src k) as [<-|N2]; [rewrite upd_same; cbn; eauto|rewrite upd_other by exact N2; eauto].
Qed.
Lemma mint_to_calm p ms w r a signers n l l' k t : a_data (l k) = DTok t -> tok_mint_to p ms w r a signers n l = Ok l' -> calm_at k l l'.
Proof.
  intros D H. apply mint_to_inv in H. destruct H as (d & m & Ud & _ & _ & _ & Um & _ & _ & _ & _ & _ & _ & Hne & _ & _ & ->).
  apply unpack_tok_inv in Ud. destruct Ud as (Dd & _). apply unpack_mint_inv in Um. destruct Um as (Dm & _).
  unfold calm_at. rewrite (upd_other _ w) by (intros ->; congruence).
  destruct (pk_dec r k) as [<-|N2]; [right|left; rewrite upd_other by exact N2; split; reflexivity].
  rewrite upd_same. exists d. eexists. split; [exact Dd|]. split; [reflexivity|]. repeat (split; [reflexivity|]). cbn. split; [lia|reflexivity].
Qed.
Lemma plain_consent c ms l q who : cpi_plain c ms -> signed_for q l (is_sig ms) who -> signed_by (c_infos c) l q who.
Proof. intros [S _] H. eapply signed_for_signed_by; [|exact H]. exact S. Qed.

(** ** Token-wrap's instructions *)
Lemma wrap_custody e0 e c amount l l' u q k t :
  Inv e0 l -> Inv e l -> lawful e0 e -> c_prog c = tw_id -> token_program q -> spared e k q -> token_account l k q t -> t_mint t = wrapped_mint_of e0 u q ->
  t_owner t <> system_id -> t_owner t <> incinerator_id ->
  process_wrap e c amount l = Ok l' -> in_custody (signed_by (c_infos c) l q) q l k t l'.
Proof.
  intros I Ie L Hc T Sp TA Mt N1 N2 H. destruct (map i_key (c_infos c)) as [|r [|w [|a [|up [|wp [|s [|u' [|esc [|ta rest]]]]]]]]] eqn:Ek;
    try (unfold process_wrap in H; inv_ok; destruct (c_infos c) as [|? [|? [|? [|? [|? [|? [|? [|? [|? ?]]]]]]]]]; discriminate).
  destruct (process_wrap_inv _ _ _ _ _ _ _ _ _ _ _ _ _ _ _ Ek Hc H)
    as (Hn0 & Tu & Tw & Hw & Ha & He & et & um & ms & extra & l1 & msm & Uet & Wet & Uum & Hfee & Hms & Cp & Ht & _ & _ & Hm).
  pose proof (transfer_custody _ _ _ _ _ _ _ _ _ _ _ _ _ _ _ _ _ _ _ I L T Sp TA Mt N1 N2 Ht) as IC.
  apply (custody_mono _ (signed_by (c_infos c) l q)) in IC; [|intro who; exact (plain_consent _ _ _ _ _ Cp)].
  destruct IC as [IC|IC].
  - apply (custody_calm _ q l k t l1 l'); [left; exact IC|]. destruct IC as (t1 & (_ & D1 & _) & _). exact (mint_to_calm _ _ _ _ _ _ _ _ _ _ _ D1 Hm).
  - apply (custody_calm _ q l k t l1 l'); [right; exact IC|]. left. destruct IC as ((D1 & _) & _).
    apply mint_to_inv in Hm. destruct Hm as (d & m & Ud & _ & _ & _ & Um & _ & _ & _ & _ & _ & _ & Hne & _ & _ & ->).
    apply unpack_tok_inv in Ud. destruct Ud as (Dd & _). apply unpack_mint_inv in Um. destruct Um as (Dm & _).
    rewrite (upd_other _ w) by (intros ->; congruence). rewrite (upd_other _ r) by (intros ->; congruence). split; reflexivity.
Qed.
Lemma unwrap_custody e0 e c amount l l' u q k t :
  Inv e0 l -> same_curve e0 e -> lawful e0 e -> c_prog c = tw_id -> token_program q -> spared e k q -> not_escrow e0 k -> token_account l k q t ->
  t_mint t = wrapped_mint_of e0 u q -> t_owner t <> system_id -> t_owner t <> incinerator_id ->
  process_unwrap e c amount l = Ok l' -> in_custody (signed_by (c_infos c) l q) q l k t l'.
Proof.
  intros I SC L Hc T Sp NE TA Mt N1 N2 H. destruct (map i_key (c_infos c)) as [|esc [|r [|a [|u' [|wp [|up [|s [|w [|ta rest]]]]]]]]] eqn:Ek;
    try (unfold process_unwrap in H; inv_ok; destruct (c_infos c) as [|? [|? [|? [|? [|? [|? [|? [|? [|? ?]]]]]]]]]; discriminate).
  destruct (process_unwrap_inv _ _ _ _ _ _ _ _ _ _ _ _ _ _ _ Ek Hc H)
    as (Hn0 & Tu & Tw & Hw & Ha & He & msk & msb & l1 & um & extra & ms & _ & Cp & Hb & _ & _ & _ & Ht).
  pose proof (changes_custody _ _ _ _ _ _ _ _ _ I T (changes_burn _ _ _ _ _ _ _ _ _ _ Hb) TA Mt N1 N2) as IC.
  apply (custody_mono _ (signed_by (c_infos c) l q)) in IC; [|intro who; exact (plain_consent _ _ _ _ _ Cp)].
  pose proof TA as (O & D & _). destruct (burn_open _ _ _ _ _ _ _ _ _ _ Hb k t D) as [t1 D1].
  apply (custody_calm _ q l k t l1 l' IC). destruct IC as [(t2 & (O1 & _) & _)|((U & _) & _)]; [|congruence].
  apply (transfer_calm _ _ _ _ _ _ _ _ _ _ _ _ _ _ _ _ _ _ L Sp O1 D1) in Ht; [exact Ht|].
  rewrite He. rewrite <- (escrow_of_curve e0 e u' up wp SC). apply NE.
Qed.
(** The other instructions leave every token account that is not an escrow as it is. *)
Lemma create_custody cu e c idem l l' k t : c_prog c = tw_id -> a_data (l k) = DTok t -> token_program (a_owner (l k)) ->
  process_create_mint cu e c idem l = Ok l' -> cu = default_customizer -> same_do (l k) (l' k).
Proof.
  intros Hc D T H ->. destruct (map i_key (c_infos c)) as [|w [|b [|u [|x [|p rest]]]]] eqn:Ek;
    try (unfold process_create_mint in H; destruct (c_infos c) as [|? [|? [|? [|? [|? ?]]]]]; discriminate).
  destruct (process_create_inv _ _ _ _ _ _ _ _ _ _ _ Ek Hc H) as (Hw & Hb & _ & [(_ & _ & _ & _ & ->)|X]); [split; reflexivity|].
  destruct X as (_ & _ & Ow & Ob & _ & _ & _ & _ & _ & mu & _ & Lw & Lb & Lo).
  rewrite Lo; [split; reflexivity| |]; intros ->; rewrite ?Ow, ?Ob in T; destruct T; discriminate.
Qed.
Lemma close_custody e0 e c l l' k t : same_curve e0 e -> c_prog c = tw_id -> a_data (l k) = DTok t -> not_escrow e0 k ->
  process_close_stuck_escrow e c l = Ok l' -> same_do (l k) (l' k).
Proof.
  intros SC Hc D NE H. destruct (map i_key (c_infos c)) as [|esc [|d [|u [|w [|a [|p rest]]]]]] eqn:Ek;
    try (unfold process_close_stuck_escrow in H; destruct (c_infos c) as [|? [|? [|? [|? [|? [|? ?]]]]]]; discriminate).
  destruct (process_close_inv _ _ _ _ _ _ _ _ _ _ _ Ek Hc H) as (Oe & _ & _ & _ & He & et & m & msc & Ue & _ & Za & _ & _ & _ & _ & _ & _ & Ht).
  unfold pod_unpack_tok in Ue. destruct (a_data (l esc)) as [|  | |t0| |] eqn:De; try discriminate; [destruct (_ && _); discriminate|].
  destruct (tok_close_tok_inv _ _ _ _ _ _ _ _ _ _ De Ht) as (Ned & _ & _ & _ & _ & _ & _ & Le & Ld & Lo).
  assert (Nk : k <> esc). { rewrite He, <- (escrow_of_curve e0 e u t22_id (a_owner (l w)) SC). apply NE. }
  destruct (pk_dec k d) as [->|N2]; [rewrite Ld|rewrite Lo by assumption]; split; reflexivity.
Qed.
Lemma sync_t22_custody e c l l' k t : c_prog c = tw_id -> a_data (l k) = DTok t ->
  process_sync_metadata_to_token_2022 e c l = Ok l' -> same_do (l k) (l' k).
Proof.
  intros Hc D H. destruct (map i_key (c_infos c)) as [|w [|a [|u [|p rest]]]] eqn:Ek;
    try (unfold process_sync_metadata_to_token_2022 in H; destruct (c_infos c) as [|? [|? [|? [|? ?]]]]; discriminate).
  destruct (process_sync_t22_inv _ _ _ _ _ _ _ _ _ Ek Hc H) as (_ & Ow & Hw & Ha & um & m & _ & Um & X).
  apply pod_unpack_mint_inv in Um. destruct Um as [Dm _].
  assert (N : k <> w) by (intros ->; congruence).
  destruct X as [(t0 & _ & Lo & _)|(_ & _ & _ & Lo & _)]; rewrite (Lo k N); split; reflexivity.
Qed.
Lemma sync_spl_custody e c l l' k t : c_prog c = tw_id -> a_data (l k) = DTok t -> token_program (a_owner (l k)) ->
  process_sync_metadata_to_spl_token e c l = Ok l' -> same_do (l k) (l' k).
Proof.
  intros Hc D T H. destruct (map i_key (c_infos c)) as [|md [|a [|w [|u [|x [|sy [|rn rest]]]]]]] eqn:Ek;
    try (unfold process_sync_metadata_to_spl_token in H; destruct (c_infos c) as [|? [|? [|? [|? [|? [|? [|? ?]]]]]]]; discriminate).
  destruct (process_sync_spl_inv _ _ _ _ _ _ _ _ _ _ _ _ Ek Hc H) as (_ & _ & _ & Ha & Hmd & _ & um & d & _ & _ & X).
  destruct X as [(_ & Om & _ & _ & _ & _ & m & _ & _ & ->)|(_ & Om & old & Dm & _ & _ & _ & ->)]; cbv zeta.
  - assert (N1 : md <> k) by (intros ->; rewrite Om in T; destruct T; discriminate). rewrite upd_other by exact N1.
    destruct (pk_dec a k) as [<-|N2]; [rewrite upd_same; split; reflexivity|rewrite upd_other by exact N2; split; reflexivity].
  - rewrite upd_other by (intros ->; congruence). split; reflexivity.
Qed.
Lemma set_pointer_custody e c v l l' k t : c_prog c = tw_id -> a_data (l k) = DTok t -> token_program (a_owner (l k)) ->
  process_set_canonical_pointer e c v l = Ok l' -> same_do (l k) (l' k).
Proof.
  intros Hc D T H. destruct (map i_key (c_infos c)) as [|a [|p [|u [|x rest]]]] eqn:Ek;
    try (unfold process_set_canonical_pointer in H; destruct (c_infos c) as [|? [|? [|? [|? ?]]]]; discriminate).
  destruct (process_set_pointer_inv _ _ _ _ _ _ _ _ _ _ Ek Hc H) as (Sa & Tu & Hp & _ & (m & Um & Am) & Q & Lp & Lo).
  rewrite (Lo k); [split; reflexivity|]. intros ->. destruct Q as [(_ & O & _)|(_ & O)]; rewrite O in T; destruct T; discriminate.
Qed.
Lemma step_custody e0 a l l' u q k t :
  Inv e0 l -> step e0 a l l' -> token_program q -> (q = t22_id \/ hooks_spare a k) -> not_escrow e0 k ->
  token_account l k q t -> t_mint t = wrapped_mint_of e0 u q -> t_owner t <> system_id -> t_owner t <> incinerator_id ->
  in_custody (consented a l q) q l k t l'.
Proof.
  intros I S T Sp NE TA Mt N1 N2. pose proof TA as (O & D & _). assert (T' : token_program (a_owner (l k))) by (rewrite O; exact T).
  destruct S as [e accounts input l l' L NS R|e p cpi accounts ix l l' L Tp NS X|e p wallet mnt l l' L Tp X|l l' W]; cbn [consented hooks_spare] in *.
  - pose proof L as [SC _]. pose proof (Inv_curve _ _ _ SC I) as Ie.
    unfold runs, process_instruction in R. apply bind_ok in R. destruct R as (i & Ei & H).
    assert (CP : c_prog (mkCtx tw_id accounts) = tw_id) by reflexivity.
    change accounts with (c_infos (mkCtx tw_id accounts)).
    destruct i; cbn [process_instr map_instr] in H.
    + exact (custody_same _ _ _ _ _ _ TA (create_custody _ _ _ _ _ _ _ _ CP D T' H eq_refl)).
    + exact (wrap_custody _ _ _ _ _ _ _ _ _ _ I Ie L CP T Sp TA Mt N1 N2 H).
    + exact (unwrap_custody _ _ _ _ _ _ _ _ _ _ I SC L CP T Sp NE TA Mt N1 N2 H).
    + exact (custody_same _ _ _ _ _ _ TA (close_custody _ _ _ _ _ _ _ SC CP D NE H)).
    + exact (custody_same _ _ _ _ _ _ TA (sync_t22_custody _ _ _ _ _ _ CP D H)).
    + exact (custody_same _ _ _ _ _ _ TA (sync_spl_custody _ _ _ _ _ _ CP D T' H)).
    + exact (custody_same _ _ _ _ _ _ TA (set_pointer_custody _ _ _ _ _ _ _ CP D T' H)).
  - apply tok_exec_changes in X. destruct X as (l3 & C & H). pose proof (changes_custody _ _ _ _ _ _ _ _ _ I T C TA Mt N1 N2) as IC.
    apply (custody_mono _ (signed_by accounts l q)) in IC; [|intros who Q; eapply signed_for_signed_by; [|exact Q]; auto].
    destruct H as [->|(m & mnt & n & _ & OP & H)]; [exact IC|exact (custody_hook _ _ _ _ _ _ _ _ _ _ _ _ L Sp TA OP IC H)].
  - apply custody_same; [exact TA|]. destruct (ata_created _ _ _ _ _ _ X) as (Lo & _). rewrite Lo; [split; reflexivity|].
    intros ->. apply ata_create_inv in X. cbv zeta in X. destruct X as (m & l3 & O' & _). rewrite O' in T'. destruct T'; discriminate.
  - apply custody_same; [exact TA|]. destruct (W k) as (A & _). destruct A as (A1 & A2 & _); [destruct T' as [Q|Q]; rewrite Q; unfold ruled; auto|].
    split; assumption.
Qed.

(** ** The freeze authority of a wrapped mint *)
Definition freeze_kept (C : pubkey -> Prop) (p : pubkey) (m : mint) (a' : account) : Prop :=
  a_owner a' = p /\ exists m', a_data a' = DMint m' /\ m_init m' = true /\ (m_freeze m' <> m_freeze m -> exists f, m_freeze m = Some f /\ C f).
Lemma freeze_mono (C D : pubkey -> Prop) p m a' : (forall who, C who -> D who) -> freeze_kept C p m a' -> freeze_kept D p m a'.
Proof. intros M (O & m' & A & B & E). split; [exact O|]. exists m'. split; [exact A|]. split; [exact B|]. intro Q. destruct (E Q) as (f & F & G). eauto. Qed.
Lemma freeze_same C p m a a' : a_owner a = p -> a_data a = DMint m -> m_init m = true -> same_do a a' -> freeze_kept C p m a'.
Proof. intros O D Hi [D' O']. split; [congruence|]. exists m. split; [congruence|]. split; [exact Hi|]. intro Q. contradiction. Qed.
Lemma freeze_then_same C p m a a' : freeze_kept C p m a -> same_do a a' -> freeze_kept C p m a'.
Proof. intros (O & m' & A & B & E) [D' O']. split; [congruence|]. exists m'. split; [congruence|]. auto. Qed.
Lemma freeze_then C p m a a' m1 m2 : freeze_kept C p m a -> a_data a = DMint m1 -> a_data a' = DMint m2 -> a_owner a' = a_owner a ->
  m_init m2 = m_init m1 -> m_freeze m2 = m_freeze m1 -> freeze_kept C p m a'.
Proof.
  intros (O & m' & A & B & E) D D' O' Hi F. assert (m' = m1) by congruence. subst m'. split; [congruence|]. exists m2.
  split; [exact D'|]. split; [congruence|]. rewrite F. exact E.
Qed.
Lemma changes_freeze_auth e0 p ms l l' u q m :
  Inv e0 l -> token_program q -> no_tw_signer ms -> token_program p -> changes p ms l l' ->
  let w := wrapped_mint_of e0 u q in
  a_owner (l w) = q -> a_data (l w) = DMint m -> m_init m = true ->
  freeze_kept (signed_for q l (is_sig ms)) q m (l' w).
Proof.
  intros I T NS Tp C. cbv zeta. pose proof (is_tw_pda_wrapped e0 u q) as P. remember (wrapped_mint_of e0 u q) as w eqn:Ew. clear Ew.
  intros O D Hi. destruct (changes_soft _ _ _ _ _ w I Tp NS C P) as [S|(_ & O' & m0 & m' & D0 & D' & S)]; [exact (freeze_same _ _ _ _ _ O D Hi S)|].
  assert (m0 = m) by congruence. subst m0. destruct S as (_ & _ & S3 & _).
  split; [congruence|]. exists m'. split; [exact D'|]. split; [congruence|]. intro Q.
  destruct (C w) as [[S1 _]|(Op & _ & X)]; [exfalso; assert (m' = m) by congruence; congruence|].
  assert (PQ : p = q) by congruence. rewrite <- PQ in *. clear PQ q. rewrite D, D' in X.
  remember (DMint m) as d eqn:Ed. remember (DMint m') as d' eqn:Ed'. remember (a_owner (l' w)) as o' eqn:Eo.
  destruct X; try discriminate Ed'; try discriminate Ed; subst;
    try match goal with H : unpack_uninit_mint (DMint m) = Ok _ |- _ => exfalso; cbn in H; rewrite Hi in H; discriminate H end;
    try match goal with H : DRaw _ = DMint _ |- _ => discriminate H end;
    match goal with H : DMint m = DMint ?n |- _ => assert (n = m) by congruence; subst n end;
    match goal with H : DMint ?n = DMint m' |- _ => assert (m' = n) by congruence; subst m' end; cbn in Q; try contradiction.
  eauto.
Qed.
Lemma hook_pda e m ms n l l' k : run_hook e m ms n l = Ok l' -> is_tw_pda k = true -> l' k = l k.
Proof.
  intros H P. unfold run_hook in H. destruct (ext_hook m) as [p|]; [|inversion H; reflexivity].
  destruct (e_hook e p ms n l) as [x|]; [|discriminate]. cbn in H. destruct (balanced _ _ _); [|discriminate]. cbn in H. inversion H; subst l'.
  unfold confine, hook_may. rewrite P. rewrite !orb_true_r. cbn. rewrite andb_false_r. reflexivity.
Qed.
Lemma transfer_pda e p cpi ms src mnt dst auth signers amount dec expf l l' k m :
  tok_transfer_checked e p cpi ms src mnt dst auth signers amount dec expf l = Ok l' -> is_tw_pda k = true -> a_data (l k) = DMint m -> same_do (l k) (l' k).
Proof.
  intros H P D. apply transfer_checked_inv in H.
  destruct H as (s & m0 & fee & s1 & Us & _ & _ & _ & _ & _ & _ & _ & _ & _ & _ & _ & [[_ ->]|(Hne & d & dx & l3 & Ud & _ & _ & _ & _ & _ & Hx & _ & _ & Mv & Hk)]).
  { split; reflexivity. }
  apply unpack_tok_inv in Us. destruct Us as (Ds & _). apply unpack_tok_inv in Ud. destruct Ud as (Dd & _).
  rewrite (hook_pda _ _ _ _ _ _ _ Hk P). destruct (move_native_same _ _ _ _ _ _ _ _ Mv k) as [S1 S2].
  unfold transfer_ledger in S1, S2. cbv zeta in S1, S2. rewrite !upd_other in S1, S2 by (intros ->; congruence). split; congruence.
Qed.
Lemma step_freeze e0 a l l' u q m :
  Inv e0 l -> step e0 a l l' -> token_program q ->
  let w := wrapped_mint_of e0 u q in
  a_owner (l w) = q -> a_data (l w) = DMint m -> m_init m = true ->
  freeze_kept (consented a l q) q m (l' w).
Proof.
  intros I S T. cbv zeta. intros O D Hi. pose proof (is_tw_pda_wrapped e0 u q) as P.
  assert (T' : token_program (a_owner (l (wrapped_mint_of e0 u q)))) by (rewrite O; exact T).
  destruct S as [e accounts input l l' L NS R|e p cpi accounts ix l l' L Tp NS X|e p wallet mnt l l' L Tp X|l l' W]; cbn [consented] in *.
  - unfold runs, process_instruction in R. apply bind_ok in R. destruct R as (i & Ei & H).
    assert (CP : c_prog (mkCtx tw_id accounts) = tw_id) by reflexivity.
    change (no_tw_signer (c_infos (mkCtx tw_id accounts))) in NS. 
    change (freeze_kept (signed_by (c_infos (mkCtx tw_id accounts)) l q) q m (l' (wrapped_mint_of e0 u q))).
    remember (mkCtx tw_id accounts) as c eqn:Ec. clear Ec accounts.
    destruct i; cbn [process_instr map_instr] in H.
    + destruct (map i_key (c_infos c)) as [|w [|b [|u' [|x [|p rest]]]]] eqn:Ek;
        try (unfold process_create_mint in H; destruct (c_infos c) as [|? [|? [|? [|? [|? ?]]]]]; discriminate).
      destruct (process_create_inv _ _ _ _ _ _ _ _ _ _ _ Ek CP H) as (Hw & Hb & _ & [(_ & _ & _ & _ & ->)|X]).
      * apply (freeze_same _ _ _ _ _ O D Hi). split; reflexivity.
      * destruct X as (_ & _ & Ow & Ob & _ & _ & _ & _ & _ & mu & _ & Lw & Lb & Lo). apply (freeze_same _ _ _ _ _ O D Hi).
        rewrite Lo; [split; reflexivity| |]; intro Q; rewrite Q in T'; rewrite ?Ow, ?Ob in T'; destruct T'; discriminate.
    + destruct (map i_key (c_infos c)) as [|r [|w [|a [|up [|wp [|s [|u' [|esc [|ta rest]]]]]]]]] eqn:Ek;
        try (unfold process_wrap in H; inv_ok; destruct (c_infos c) as [|? [|? [|? [|? [|? [|? [|? [|? [|? ?]]]]]]]]]; discriminate).
      destruct (process_wrap_inv _ _ _ _ _ _ _ _ _ _ _ _ _ _ _ Ek CP H)
        as (Hn0 & Tu & Tw & Hw & Ha & He & et & um & ms & extra & l1 & msm & Uet & Wet & Uum & Hfee & Hms & Cp & Ht & _ & _ & Hm).
      pose proof (transfer_pda _ _ _ _ _ _ _ _ _ _ _ _ _ _ _ _ Ht P D) as S1.
      pose proof (freeze_same (signed_by (c_infos c) l q) _ _ _ _ O D Hi S1) as F1.
      apply mint_to_inv in Hm. destruct Hm as (d & m1 & Ud & _ & _ & _ & Um & _ & _ & _ & _ & _ & _ & Hne & _ & _ & ->).
      apply unpack_tok_inv in Ud. destruct Ud as (Dd & _). apply unpack_mint_inv in Um. destruct Um as (Dm & _).
      destruct S1 as [S1 S2]. destruct (pk_dec w (wrapped_mint_of e0 u q)) as [Q|Q].
      * rewrite <- Q in *. rewrite upd_same. eapply freeze_then; [exact F1|exact Dm|cbn; reflexivity|reflexivity|reflexivity|reflexivity].
      * apply (freeze_then_same _ _ _ _ _ F1). rewrite upd_other by exact Q. rewrite upd_other by (intros ->; congruence). split; reflexivity.
    + destruct (map i_key (c_infos c)) as [|esc [|r [|a [|u' [|wp [|up [|s [|w [|ta rest]]]]]]]]] eqn:Ek;
        try (unfold process_unwrap in H; inv_ok; destruct (c_infos c) as [|? [|? [|? [|? [|? [|? [|? [|? [|? ?]]]]]]]]]; discriminate).
      destruct (process_unwrap_inv _ _ _ _ _ _ _ _ _ _ _ _ _ _ _ Ek CP H)
        as (Hn0 & Tu & Tw & Hw & Ha & He & msk & msb & l1 & um & extra & ms & _ & Cp & Hb & _ & _ & _ & Ht).
      pose proof (changes_freeze_auth _ _ _ _ _ _ _ _ I T (plain_unsigned _ _ NS Cp) Tw (changes_burn _ _ _ _ _ _ _ _ _ _ Hb) O D Hi) as F1.
      pose proof F1 as (_ & m1 & D1 & _). apply (freeze_then_same _ _ _ (l1 (wrapped_mint_of e0 u q))); [|exact (transfer_pda _ _ _ _ _ _ _ _ _ _ _ _ _ _ _ _ Ht P D1)].
      revert F1. apply freeze_mono. intro who. exact (plain_consent _ _ _ _ _ Cp).
    + destruct (map i_key (c_infos c)) as [|esc [|d [|u' [|w [|a [|p rest]]]]]] eqn:Ek;
        try (unfold process_close_stuck_escrow in H; destruct (c_infos c) as [|? [|? [|? [|? [|? [|? ?]]]]]]; discriminate).
      destruct (process_close_inv _ _ _ _ _ _ _ _ _ _ _ Ek CP H) as (Oe & _ & _ & _ & He & et & m1 & msc & Ue & _ & Za & _ & _ & _ & _ & _ & _ & Ht).
      unfold pod_unpack_tok in Ue. destruct (a_data (l esc)) as [|  | |t0| |] eqn:De; try discriminate; [destruct (_ && _); discriminate|].
      destruct (tok_close_tok_inv _ _ _ _ _ _ _ _ _ _ De Ht) as (Ned & _ & _ & _ & _ & _ & _ & Le & Ld & Lo).
      apply (freeze_same _ _ _ _ _ O D Hi). assert (Nk : wrapped_mint_of e0 u q <> esc) by (intro Q; rewrite Q in D; congruence).
      destruct (pk_dec (wrapped_mint_of e0 u q) d) as [Q|N2]; [rewrite Q, Ld|rewrite Lo by assumption]; split; reflexivity.
    + destruct (map i_key (c_infos c)) as [|w [|a [|u' [|p rest]]]] eqn:Ek;
        try (unfold process_sync_metadata_to_token_2022 in H; destruct (c_infos c) as [|? [|? [|? [|? ?]]]]; discriminate).
      destruct (process_sync_t22_inv _ _ _ _ _ _ _ _ _ Ek CP H) as (_ & Ow & Hw & Ha & um & m1 & _ & Um & X).
      apply pod_unpack_mint_inv in Um. destruct Um as [Dm _].
      assert (F0 : freeze_kept (signed_by (c_infos c) l q) q m (l (wrapped_mint_of e0 u q))) by (apply (freeze_same _ _ _ _ _ O D Hi); split; reflexivity).
      destruct (pk_dec (wrapped_mint_of e0 u q) w) as [Q|N].
      * rewrite Q in *. destruct X as [(t0 & _ & _ & len & _ & Lw)|(_ & _ & _ & _ & Lw)]; rewrite Lw;
          (eapply freeze_then; [exact F0|exact Dm|cbn; reflexivity|reflexivity|reflexivity|reflexivity]).
      * apply (freeze_then_same _ _ _ _ _ F0). destruct X as [(t0 & _ & Lo & _)|(_ & _ & _ & Lo & _)]; rewrite (Lo _ N); split; reflexivity.
    + destruct (map i_key (c_infos c)) as [|md [|a [|w [|u' [|x [|sy [|rn rest]]]]]]] eqn:Ek;
        try (unfold process_sync_metadata_to_spl_token in H; destruct (c_infos c) as [|? [|? [|? [|? [|? [|? [|? ?]]]]]]]; discriminate).
      destruct (process_sync_spl_inv _ _ _ _ _ _ _ _ _ _ _ _ Ek CP H) as (_ & _ & _ & Ha & Hmd & _ & um & d & _ & _ & X).
      apply (freeze_same _ _ _ _ _ O D Hi).
      destruct X as [(_ & Om & _ & _ & _ & _ & m1 & _ & _ & ->)|(_ & Om & old & Dm & _ & _ & _ & ->)]; cbv zeta.
      * assert (N1 : md <> wrapped_mint_of e0 u q) by (intro Q; rewrite <- Q, Om in T'; destruct T'; discriminate). rewrite upd_other by exact N1.
        destruct (pk_dec a (wrapped_mint_of e0 u q)) as [<-|N2]; [rewrite upd_same; split; reflexivity|rewrite upd_other by exact N2; split; reflexivity].
      * rewrite upd_other by (intro Q; rewrite <- Q, Om in T'; destruct T'; discriminate). split; reflexivity.
    + destruct (map i_key (c_infos c)) as [|a [|p [|u' [|x rest]]]] eqn:Ek;
        try (unfold process_set_canonical_pointer in H; destruct (c_infos c) as [|? [|? [|? [|? ?]]]]; discriminate).
      destruct (process_set_pointer_inv _ _ _ _ _ _ _ _ _ _ Ek CP H) as (Sa & Tu & Hp & _ & (m1 & Um & Am) & Q & Lp & Lo).
      apply (freeze_same _ _ _ _ _ O D Hi). rewrite Lo; [split; reflexivity|]. intro E. rewrite E in T'.
      destruct Q as [(_ & Op & _)|(_ & Op)]; rewrite Op in T'; destruct T'; discriminate.
  - apply tok_exec_changes in X. destruct X as (l3 & C & H). pose proof (changes_freeze_auth _ _ _ _ _ _ _ _ I T NS Tp C O D Hi) as F1.
    apply (freeze_mono _ (signed_by accounts l q)) in F1; [|intros who Q; eapply signed_for_signed_by; [|exact Q]; auto].
    destruct H as [->|(m1 & mnt & n & _ & OP & H)]; [exact F1|]. rewrite (hook_pda _ _ _ _ _ _ _ H P). exact F1.
  - apply (freeze_same _ _ _ _ _ O D Hi). destruct (ata_created _ _ _ _ _ _ X) as (Lo & _). rewrite Lo; [split; reflexivity|].
    intro Q. rewrite Q in T'. apply ata_create_inv in X. cbv zeta in X. destruct X as (m1 & l3 & O' & _). rewrite O' in T'. destruct T'; discriminate.
  - apply (freeze_same _ _ _ _ _ O D Hi). destruct (W (wrapped_mint_of e0 u q)) as (_ & A & _). destruct (A P) as [A1 A2]. split; assumption.
Qed.

(** ** C62 *)
(** One action: whatever it does to an account of wrapped tokens is consented to by those with the power over that account. *)
Theorem C62_custody : forall e0 a l l' u wtp k t,
  reachable e0 l -> step e0 a l l' -> spl_or_t22 wtp ->
  token_account l k wtp t -> t_mint t = wrapped_mint_of e0 u wtp ->
  not_escrow e0 k -> t_owner t <> system_id -> t_owner t <> incinerator_id ->
  (wtp = t22_id \/ hooks_spare a k) ->
  in_custody (consented a l wtp) wtp l k t l'.
Proof.
  intros e0 a l l' u wtp k t R S T TA Mt NE N1 N2 Sp.
  exact (step_custody _ _ _ _ _ _ _ _ (reachable_inv _ _ R) S T Sp NE TA Mt N1 N2).
Qed.
Print Assumptions C62_custody.
(** The power to freeze is handed on only by whoever has it; where nobody has it, nobody gets it. *)
Theorem C62_freeze_authority : forall e0 a l l' u wtp m,
  reachable e0 l -> step e0 a l l' -> spl_or_t22 wtp -> mint_account l (wrapped_mint_of e0 u wtp) wtp m ->
  exists m', mint_account l' (wrapped_mint_of e0 u wtp) wtp m' /\
    (m_freeze m' <> m_freeze m -> exists f, m_freeze m = Some f /\ consented a l wtp f).
Proof.
  intros e0 a l l' u wtp m R S T (O & D & Hi). destruct (step_freeze _ _ _ _ _ _ _ (reachable_inv _ _ R) S T O D Hi) as (O' & m' & D' & Hi' & F).
  exists m'. split; [repeat split; assumption|exact F].
Qed.
Print Assumptions C62_freeze_authority.

(** A course of actions, each with the state it starts from. *)
Inductive course (e0 : env) : list (action * ledger) -> ledger -> ledger -> Prop :=
| co_end l : course e0 [] l l
| co_step a l l1 acts l' : step e0 a l l1 -> course e0 acts l1 l' -> course e0 ((a, l) :: acts) l l'.
(** [who] consented to none of them. *)
Definition idle (acts : list (action * ledger)) (p who : pubkey) : Prop := forall a l, In (a, l) acts -> ~ consented a l p who.

Lemma course_reachable e0 acts l l' : course e0 acts l l' -> reachable e0 l -> reachable e0 l'.
Proof.
  induction 1 as [|a l l1 acts l' S C IH]; intro R; [exact R|]. apply IH. destruct R as [past H]. exists (l :: past). exact (h_step _ _ _ _ _ H S).
Qed.
(** However long the course and whoever acts in it: while the owner and the close authority of an account of wrapped tokens
    consent to nothing, the account stays theirs and loses at most what its delegate had been allowed (and nothing if the
    delegate consents to nothing either); and while the mint's freeze authority (if there is one) consents to nothing, it is
    neither frozen nor thawed. *)
Theorem C62_allowance : forall e0 acts l l' u wtp k t,
  reachable e0 l -> course e0 acts l l' -> spl_or_t22 wtp ->
  token_account l k wtp t -> t_mint t = wrapped_mint_of e0 u wtp ->
  not_escrow e0 k -> t_owner t <> system_id -> t_owner t <> incinerator_id ->
  (wtp = t22_id \/ forall a x, In (a, x) acts -> hooks_spare a k) ->
  idle acts wtp (t_owner t) -> (forall c, t_close t = Some c -> idle acts wtp c) ->
  exists t', token_account l' k wtp t' /\ t_mint t' = t_mint t /\ t_owner t' = t_owner t /\ t_close t' = t_close t /\
    (t_delegate t' = t_delegate t \/ t_delegate t' = None) /\
    t_delegated t' <= t_delegated t /\ t_amount t - t_amount t' <= t_delegated t - t_delegated t' /\
    ((forall d, t_delegate t = Some d -> idle acts wtp d) -> t_amount t <= t_amount t') /\
    confidential_of (t_exts t) <= confidential_of (t_exts t') /\
    cpi_guard_locked t' = cpi_guard_locked t /\ memo_required t' = memo_required t /\
    ((exists m, mint_account l (t_mint t) wtp m /\ (forall f, m_freeze m = Some f -> idle acts wtp f)) -> t_state t' = t_state t).
Proof.
  intros e0 acts l l' u wtp k t R C T. revert t R. induction C as [l|a l l1 acts l' S C IH]; intros t R TA Mt NE N1 N2 Sp Ho Hc.
  - exists t. repeat (split; [assumption || reflexivity|]). split; [left; reflexivity|]. split; [lia|]. split; [lia|]. split; [lia|]. split; [lia|]. split; [reflexivity|]. split; [reflexivity|reflexivity].
  - assert (R1 : reachable e0 l1) by (destruct R as [past H]; exists (l :: past); exact (h_step _ _ _ _ _ H S)).
    assert (Ho1 : ~ consented a l wtp (t_owner t)) by (apply Ho; left; reflexivity).
    assert (Hc1 : forall c, t_close t = Some c -> ~ consented a l wtp c) by (intros c E; apply (Hc c E); left; reflexivity).
    assert (Sp0 : wtp = t22_id \/ hooks_spare a k) by (destruct Sp as [Sp|Sp]; [left; exact Sp|right; apply (Sp a l); left; reflexivity]).
    assert (Sp1 : wtp = t22_id \/ forall b x, In (b, x) acts -> hooks_spare b k).
    { destruct Sp as [Sp|Sp]; [left; exact Sp|right; intros b x Hb; apply (Sp b x); right; exact Hb]. }
    assert (ID : forall who, idle ((a, l) :: acts) wtp who -> idle acts wtp who) by (intros who Q b x Hb; apply Q; right; exact Hb).
    destruct (C62_custody _ _ _ _ _ _ _ _ R S T TA Mt NE N1 N2 Sp0) as [(t1 & TA1 & M1 & A1 & L1 & K1 & Y1 & W1 & G1 & X1 & F1)|(_ & _ & _ & [Q|(c & E & Q)])];
      [|contradiction|exfalso; exact (Hc1 c E Q)].
    assert (EW : t_owner t1 = t_owner t) by (destruct (pk_dec (t_owner t1) (t_owner t)) as [Q|Q]; [exact Q|exfalso; exact (Ho1 (W1 Q))]).
    assert (EX : t_close t1 = t_close t).
    { assert (DEC : {t_close t1 = t_close t} + {t_close t1 <> t_close t}) by (decide equality; apply pk_dec).
      destruct DEC as [Q|Q]; [exact Q|]. exfalso. destruct (X1 Q) as [Y|(c & E & Y)]; [exact (Ho1 Y)|exact (Hc1 c E Y)]. }
    assert (EG : t_delegate t1 = t_delegate t \/ t_delegate t1 = None).
    { assert (DEC : {t_delegate t1 = t_delegate t} + {t_delegate t1 <> t_delegate t}) by (decide equality; apply pk_dec).
      destruct DEC as [Q|Q]; [left; exact Q|right]. destruct (t_delegate t1) as [d|] eqn:E; [|reflexivity]. exfalso. apply Ho1, G1; [exact Q|discriminate]. }
    assert (EL : t_delegated t1 <= t_delegated t).
    { destruct (N.le_gt_cases (t_delegated t1) (t_delegated t)) as [Q|Q]; [exact Q|]. exfalso. exact (Ho1 (L1 Q)). }
    assert (EB : t_amount t - t_amount t1 <= t_delegated t - t_delegated t1).
    { destruct (N.le_gt_cases (t_amount t) (t_amount t1)) as [Q|Q]; [lia|]. destruct (A1 Q) as [Y|(d & E & Y & Y')]; [contradiction|exact Y']. }
    assert (EA : (forall d, t_delegate t = Some d -> idle ((a, l) :: acts) wtp d) -> t_amount t <= t_amount t1).
    { intro Hd. destruct (N.le_gt_cases (t_amount t) (t_amount t1)) as [Q|Q]; [exact Q|]. exfalso.
      destruct (A1 Q) as [Y|(d & E & Y & _)]; [exact (Ho1 Y)|]. apply (Hd d E a l); [left; reflexivity|exact Y]. }
    assert (EK : confidential_of (t_exts t) <= confidential_of (t_exts t1)).
    { destruct (N.le_gt_cases (confidential_of (t_exts t)) (confidential_of (t_exts t1))) as [Q|Q]; [exact Q|]. exfalso. exact (Ho1 (K1 Q)). }
    assert (EY : cpi_guard_locked t1 = cpi_guard_locked t /\ memo_required t1 = memo_required t).
    { destruct (Bool.bool_dec (cpi_guard_locked t1) (cpi_guard_locked t)) as [Q|Q]; [|exfalso; exact (Ho1 (Y1 (or_introl Q)))].
      destruct (Bool.bool_dec (memo_required t1) (memo_required t)) as [Q'|Q']; [split; assumption|exfalso; exact (Ho1 (Y1 (or_intror Q')))]. }
    destruct (IH t1) as (t' & TA' & M' & W' & X' & G' & L' & B' & A' & K' & Y1' & Y2' & F'); try assumption; try (rewrite EW; assumption).
    + clear -Mt M1. congruence.
    + rewrite EW. exact (ID _ Ho).
    + intros c E. apply ID, Hc. congruence.
    + exists t'. split; [exact TA'|]. split; [congruence|]. split; [congruence|]. split; [congruence|].
      split; [destruct G' as [G'|G']; [rewrite G'; exact EG|right; exact G']|]. split; [lia|]. split; [lia|]. split.
      { intro Hd. specialize (EA Hd). enough (t_amount t1 <= t_amount t') by lia. apply A'. intros d E. apply ID, Hd.
        destruct EG as [EG|EG]; congruence. }
      split; [lia|]. split; [rewrite Y1'; exact (proj1 EY)|]. split; [rewrite Y2'; exact (proj2 EY)|].
      intros (m & Hm & Hf).
      assert (ES : t_state t1 = t_state t).
      { assert (DEC : {t_state t1 = t_state t} + {t_state t1 <> t_state t}) by decide equality.
        destruct DEC as [Q|Q]; [exact Q|]. exfalso. destruct (F1 Q) as (m0 & f & D0 & E0 & Y). destruct Hm as (_ & D & _).
        assert (m0 = m) by congruence. subst m0. apply (Hf f E0 a l); [left; reflexivity|exact Y]. }
      rewrite <- ES. apply F'. rewrite M1. rewrite Mt in Hm |- *. destruct (C62_freeze_authority _ _ _ _ _ _ _ R S T Hm) as (m' & Hm' & Fm). exists m'.
      split; [exact Hm'|]. intros f E. apply ID, Hf.
      assert (DEC : {m_freeze m' = m_freeze m} + {m_freeze m' <> m_freeze m}) by (decide equality; apply pk_dec).
      destruct DEC as [Q|Q]; [congruence|]. exfalso. destruct (Fm Q) as (g & Eg & Y). apply (Hf g Eg a l); [left; reflexivity|exact Y].
Qed.
Print Assumptions C62_allowance.
(** In particular: while neither owner, nor delegate, nor close authority signs anything, nothing is lost. *)
Theorem C62_undisturbed : forall e0 acts l l' u wtp k t,
  reachable e0 l -> course e0 acts l l' -> spl_or_t22 wtp ->
  token_account l k wtp t -> t_mint t = wrapped_mint_of e0 u wtp ->
  not_escrow e0 k -> t_owner t <> system_id -> t_owner t <> incinerator_id ->
  (wtp = t22_id \/ forall a x, In (a, x) acts -> hooks_spare a k) ->
  idle acts wtp (t_owner t) -> (forall d, t_delegate t = Some d -> idle acts wtp d) -> (forall c, t_close t = Some c -> idle acts wtp c) ->
  exists t', token_account l' k wtp t' /\ t_mint t' = t_mint t /\ t_owner t' = t_owner t /\ t_close t' = t_close t /\
    (t_delegate t' = t_delegate t \/ t_delegate t' = None) /\
    t_amount t <= t_amount t' /\ confidential_of (t_exts t) <= confidential_of (t_exts t') /\
    cpi_guard_locked t' = cpi_guard_locked t /\ memo_required t' = memo_required t /\
    ((exists m, mint_account l (t_mint t) wtp m /\ (forall f, m_freeze m = Some f -> idle acts wtp f)) -> t_state t' = t_state t).
Proof.
  intros e0 acts l l' u wtp k t R C T TA Mt NE N1 N2 Sp Ho Hd Hc.
  destruct (C62_allowance _ _ _ _ _ _ _ _ R C T TA Mt NE N1 N2 Sp Ho Hc) as (t' & TA' & M' & W' & X' & G' & _ & _ & A' & K' & Y1 & Y2 & F').
  exists t'. split; [exact TA'|]. split; [exact M'|]. split; [exact W'|]. split; [exact X'|]. split; [exact G'|].
  split; [exact (A' Hd)|]. split; [exact K'|]. split; [exact Y1|]. split; [exact Y2|exact F'].
Qed.
Print Assumptions C62_undisturbed.

(** ** The hypotheses are met *)
Definition bob_tok : tokacc := match a_data (now_of story d_bob_w) with DTok t => t | _ => mkTok d_u d_u 0 None 0 Initialized None None [] end.
Lemma bob_account : token_account (now_of story) d_bob_w t22_id bob_tok /\ t_mint bob_tok = d_w t22_id /\ t_owner bob_tok = d_bob /\ t_amount bob_tok = 50 /\
  t_delegate bob_tok = None /\ t_close bob_tok = None /\ t_state bob_tok = Initialized.
Proof. unfold token_account. vm_compute. repeat split; discriminate. Qed.
Lemma bob_not_escrow : not_escrow demo_env d_bob_w.
Proof. intros u utp wtp. unfold escrow_of, ata_of, pda. discriminate. Qed.
Lemma story_reachable : reachable demo_env (now_of story).
Proof. exists (past_of story). apply played_history. vm_compute. reflexivity. Qed.
(** Alice unwraps 100 of her tokens and sends Bob 20; Bob does nothing and keeps his, unfrozen. *)
Definition send_bob_20 : list info := [meta_w d_alice_w false; meta_r (d_w t22_id) false; meta_w d_bob_w false; meta_r d_alice true].
Definition alice_acts (l l1 : ledger) : list (action * ledger) :=
  [ (ATokenWrap demo_env (tx_metas (i_unwrap 100)) (tx_data (i_unwrap 100)), l);
    (ATokenProgram demo_env t22_id false send_bob_20 (TiTransferChecked 20 6), l1) ].
Lemma not_signed_by accounts l p k :
  forallb (fun i => negb (pk_eqb (i_key i) k && i_signer i)) accounts = true -> (forall m, a_data (l k) <> DMultisig m) -> ~ signed_by accounts l p k.
Proof.
  intros H M [(i & Hi & E & S)|(m & _ & D & _)]; [|exact (M m D)]. rewrite forallb_forall in H. specialize (H i Hi). rewrite S in H.
  apply negb_true_iff, andb_false_iff in H. destruct H as [H|H]; [|discriminate]. apply pk_eqb_neq in H. contradiction.
Qed.
Example C62_example : exists l1 l2 t',
  course demo_env (alice_acts (now_of story) l1) (now_of story) l2 /\
  token_account l2 d_bob_w t22_id t' /\ t_owner t' = d_bob /\ 50 <= t_amount t' /\ t_state t' = Initialized.
Proof.
  destruct (process_instruction demo_env (mkCtx tw_id (tx_metas (i_unwrap 100))) (tx_data (i_unwrap 100)) (now_of story)) as [l1|err] eqn:E1.
  2: { exfalso. assert (K : match process_instruction demo_env (mkCtx tw_id (tx_metas (i_unwrap 100))) (tx_data (i_unwrap 100)) (now_of story) with Ok _ => true | Err _ => false end = true) by (vm_compute; reflexivity).
       rewrite E1 in K. discriminate. }
  destruct (tok_exec demo_env t22_id false send_bob_20 (TiTransferChecked 20 6) l1) as [l2|err] eqn:E2.
  2: { exfalso. assert (K : match process_instruction demo_env (mkCtx tw_id (tx_metas (i_unwrap 100))) (tx_data (i_unwrap 100)) (now_of story) with
                            | Ok x => match tok_exec demo_env t22_id false send_bob_20 (TiTransferChecked 20 6) x with Ok _ => true | Err _ => false end | Err _ => false end = true)
         by (vm_compute; reflexivity).
       rewrite E1, E2 in K. discriminate. }
  assert (CO : course demo_env (alice_acts (now_of story) l1) (now_of story) l2).
  { eapply co_step; [apply st_token_wrap; [exact demo_lawful|apply unsignedb_true; vm_compute; reflexivity|exact E1]|].
    eapply co_step; [apply st_token_program; [exact demo_lawful|right; reflexivity|apply unsignedb_true; vm_compute; reflexivity|exact E2]|]. apply co_end. }
  assert (NM : forall k m, (k = d_bob \/ k = d_freeze) -> a_data (now_of story k) <> DMultisig m /\ a_data (l1 k) <> DMultisig m).
  { assert (K : match process_instruction demo_env (mkCtx tw_id (tx_metas (i_unwrap 100))) (tx_data (i_unwrap 100)) (now_of story) with
                | Ok x => forallb (fun k => match a_data (now_of story k), a_data (x k) with DMultisig _, _ | _, DMultisig _ => false | _, _ => true end) [d_bob; d_freeze] | Err _ => false end = true)
         by (vm_compute; reflexivity).
    rewrite E1 in K. rewrite forallb_forall in K. intros k m Hk. assert (Hin : In k [d_bob; d_freeze]) by (destruct Hk as [-> | ->]; cbn; auto).
    specialize (K k Hin). cbv beta in K. clear -K. destruct (a_data (now_of story k)); destruct (a_data (l1 k)); try discriminate K; split; intro Q; discriminate Q. }
  assert (ID : forall k, (k = d_bob \/ k = d_freeze) -> idle (alice_acts (now_of story) l1) t22_id k).
  { intros k Hk a x [Q|[Q|[]]]; apply pair_equal_spec in Q; destruct Q as [<- <-]; (apply not_signed_by; [clear -Hk; destruct Hk as [-> | ->]; vm_compute; reflexivity|]).
    - intro m. exact (proj1 (NM k m Hk)).
    - intro m. exact (proj2 (NM k m Hk)). }
  destruct bob_account as (B1 & B2 & B3 & B4 & B5 & B6 & B7).
  destruct (C62_undisturbed demo_env _ _ _ d_u t22_id d_bob_w bob_tok story_reachable CO (or_intror eq_refl) B1 B2 bob_not_escrow) as (t' & T1 & _ & T2 & _ & _ & T3 & _ & _ & _ & T4).
  - rewrite B3. discriminate.
  - rewrite B3. discriminate.
  - left. reflexivity.
  - rewrite B3. apply ID. left. reflexivity.
  - rewrite B5. discriminate.
  - rewrite B6. discriminate.
  - exists l1, l2, t'. split; [exact CO|]. split; [exact T1|]. split; [congruence|]. split; [rewrite <- B4; exact T3|]. rewrite <- B7. apply T4.
    rewrite B2. exists (match a_data (now_of story (d_w t22_id)) with DMint m => m | _ => mkMint None 0 0 true None [] 0 end).
    split; [unfold mint_account, mint_data; vm_compute; repeat split|]. intros f Q. apply ID. right. vm_compute in Q. inversion Q. reflexivity.
Qed.
(** Bob lets Alice spend 30; she takes 20. However she uses her allowance, Bob keeps at least 20. *)
Definition bob_approves : list info := [meta_w d_bob_w false; meta_r d_alice false; meta_r d_bob true].
Definition alice_takes : list info := [meta_w d_bob_w false; meta_r (d_w t22_id) false; meta_w d_alice_w false; meta_r d_alice true].
Example C62_spends : exists l1 l2 t t',
  step demo_env (ATokenProgram demo_env t22_id false bob_approves (TiApprove 30)) (now_of story) l1 /\
  course demo_env [(ATokenProgram demo_env t22_id false alice_takes (TiTransferChecked 20 6), l1)] l1 l2 /\
  token_account l1 d_bob_w t22_id t /\ t_amount t = 50 /\ t_delegate t = Some d_alice /\ t_delegated t = 30 /\
  token_account l2 d_bob_w t22_id t' /\ t_owner t' = d_bob /\ t_amount t - t_amount t' <= t_delegated t - t_delegated t' /\ 20 <= t_amount t' /\
  t_amount t' = 30 /\ t_delegated t' = 10.
Proof.
  destruct (tok_exec demo_env t22_id false bob_approves (TiApprove 30) (now_of story)) as [l1|err] eqn:E1.
  2: { exfalso. assert (K : match tok_exec demo_env t22_id false bob_approves (TiApprove 30) (now_of story) with Ok _ => true | Err _ => false end = true) by (vm_compute; reflexivity).
       rewrite E1 in K. discriminate K. }
  destruct (tok_exec demo_env t22_id false alice_takes (TiTransferChecked 20 6) l1) as [l2|err] eqn:E2.
  2: { exfalso. assert (K : match tok_exec demo_env t22_id false bob_approves (TiApprove 30) (now_of story) with
                            | Ok x => match tok_exec demo_env t22_id false alice_takes (TiTransferChecked 20 6) x with Ok _ => true | Err _ => false end | Err _ => false end = true)
         by (vm_compute; reflexivity).
       rewrite E1, E2 in K. discriminate K. }
  assert (S1 : step demo_env (ATokenProgram demo_env t22_id false bob_approves (TiApprove 30)) (now_of story) l1)
    by (apply st_token_program; [exact demo_lawful|right; reflexivity|apply unsignedb_true; vm_compute; reflexivity|exact E1]).
  assert (CO : course demo_env [(ATokenProgram demo_env t22_id false alice_takes (TiTransferChecked 20 6), l1)] l1 l2).
  { eapply co_step; [apply st_token_program; [exact demo_lawful|right; reflexivity|apply unsignedb_true; vm_compute; reflexivity|exact E2]|]. apply co_end. }
  assert (R1 : reachable demo_env l1) by (destruct story_reachable as [past H]; exists (now_of story :: past); exact (h_step _ _ _ _ _ H S1)).
  assert (T1 : exists t, token_account l1 d_bob_w t22_id t /\ t_mint t = d_w t22_id /\ t_owner t = d_bob /\ t_amount t = 50 /\ t_delegate t = Some d_alice /\ t_delegated t = 30 /\ t_close t = None).
  { assert (K : match tok_exec demo_env t22_id false bob_approves (TiApprove 30) (now_of story) with
                | Ok x => match a_data (x d_bob_w) with
                          | DTok t => pk_eqb (a_owner (x d_bob_w)) t22_id && acct_state_eqb (t_state t) Initialized && pk_eqb (t_mint t) (d_w t22_id) && pk_eqb (t_owner t) d_bob &&
                                      (t_amount t =? 50) && opk_eqb (t_delegate t) (Some d_alice) && (t_delegated t =? 30) && opk_eqb (t_close t) None
                          | _ => false end
                | Err _ => false end = true) by (vm_compute; reflexivity).
    rewrite E1 in K. destruct (a_data (l1 d_bob_w)) as [| | |t| |] eqn:D; try discriminate K. exists t.
    repeat (apply andb_true_iff in K; let Q := fresh "Q" in destruct K as [K Q]).
    apply pk_eqb_eq in K. apply opk_eqb_eq in Q. apply N.eqb_eq in Q0. apply opk_eqb_eq in Q1. apply N.eqb_eq in Q2. apply pk_eqb_eq in Q3. apply pk_eqb_eq in Q4.
    split; [split; [exact K|split; [exact D|destruct (t_state t); [discriminate Q5|discriminate|discriminate]]]|]. repeat (split; [assumption|]). exact Q. }
  assert (T2 : match a_data (l2 d_bob_w) with DTok t => t_amount t = 30 /\ t_delegated t = 10 | _ => False end).
  { assert (K : match tok_exec demo_env t22_id false bob_approves (TiApprove 30) (now_of story) with
                | Ok x => match tok_exec demo_env t22_id false alice_takes (TiTransferChecked 20 6) x with
                          | Ok y => match a_data (y d_bob_w) with DTok t => (t_amount t =? 30) && (t_delegated t =? 10) | _ => false end
                          | Err _ => false end
                | Err _ => false end = true) by (vm_compute; reflexivity).
    rewrite E1, E2 in K. destruct (a_data (l2 d_bob_w)) as [| | |t| |]; try discriminate K. apply andb_true_iff in K. destruct K as [K K'].
    apply N.eqb_eq in K. apply N.eqb_eq in K'. split; assumption. }
  destruct T1 as (t & TA & Mt & Ow & Am & De & Al & Cl).
  destruct (C62_allowance demo_env _ _ _ d_u t22_id d_bob_w t R1 CO (or_intror eq_refl) TA Mt bob_not_escrow) as (t' & T1' & _ & T2' & _ & _ & T3 & T4 & _).
  - rewrite Ow. discriminate.
  - rewrite Ow. discriminate.
  - left. reflexivity.
  - rewrite Ow. intros a x [Q|[]]. apply pair_equal_spec in Q. destruct Q as [<- <-]. apply not_signed_by; [vm_compute; reflexivity|].
    assert (K : match tok_exec demo_env t22_id false bob_approves (TiApprove 30) (now_of story) with
                | Ok y => match a_data (y d_bob) with DMultisig _ => false | _ => true end | Err _ => false end = true) by (vm_compute; reflexivity).
    rewrite E1 in K. intros m D. rewrite D in K. discriminate K.
  - rewrite Cl. discriminate.
  - exists l1, l2, t, t'. destruct T1' as (O' & D' & S'). rewrite D' in T2. destruct T2 as [U1 U2]. split; [exact S1|]. split; [exact CO|]. split; [exact TA|]. split; [exact Am|].
    split; [exact De|]. split; [exact Al|]. split; [split; [exact O'|split; [exact D'|exact S']]|]. split; [congruence|]. split; [exact T4|]. split; [lia|]. split; assumption.
Qed.
(** The issuer of the unwrapped mint keeps one power over wrapped tokens: its freeze authority was copied to the wrapped mint, and freezes Bob's account. *)
Example C62_frozen : exists l' t,
  step demo_env (ATokenProgram demo_env t22_id false [meta_w d_bob_w false; meta_r (d_w t22_id) false; meta_r d_freeze true] (TiFreeze true)) (now_of story) l' /\
  a_data (l' d_bob_w) = DTok t /\ t_state t = Frozen /\ t_amount t = 50.
Proof.
  destruct (tok_exec demo_env t22_id false [meta_w d_bob_w false; meta_r (d_w t22_id) false; meta_r d_freeze true] (TiFreeze true) (now_of story)) as [l'|err] eqn:E;
    [|exfalso; assert (K : match tok_exec demo_env t22_id false [meta_w d_bob_w false; meta_r (d_w t22_id) false; meta_r d_freeze true] (TiFreeze true) (now_of story) with
                           Ok _ => true | Err _ => false end = true) by (vm_compute; reflexivity); rewrite E in K; discriminate].
  assert (K : match tok_exec demo_env t22_id false [meta_w d_bob_w false; meta_r (d_w t22_id) false; meta_r d_freeze true] (TiFreeze true) (now_of story) with
              Ok x => match a_data (x d_bob_w) with DTok t => match t_state t with Frozen => t_amount t =? 50 | _ => false end | _ => false end | Err _ => false end = true) by (vm_compute; reflexivity).
  rewrite E in K. destruct (a_data (l' d_bob_w)) as [| | |t| |] eqn:D; try discriminate K. destruct (t_state t) eqn:St; try discriminate K. apply N.eqb_eq in K.
  exists l', t. split; [|exact (conj D (conj St K))]. apply st_token_program; [exact demo_lawful|right; reflexivity|apply unsignedb_true; vm_compute; reflexivity|exact E].
Qed.
