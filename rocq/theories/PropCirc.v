(** * PropCirc.v — C75: wrapping creates no tokens, and does not re-denominate them.

    All wrapped tokens of a mint together with all unwrapped ones that are not in escrow never exceed the mint's supply.
    While wrapped tokens exist, the unwrapped mint exists too, with the same token program and decimals.  Wrapped and
    unwrapped mint have the same decimals, unless the unwrapped mint was closed and re-created. *)
From Verif Require Import Base Codec State Pda TokenProg Cpi Ata Meta Processor Builders Tac Demo Demo2 PdaProofs TokProofs FrameProofs ProcProofs
  Spec SpecLemmas WrapProofs WrapProofs2 CreateProofs MapProofs SyncProofs SyncProofs2 CloseProofs HistorySpec
  InvTok InvCons InvState InvTw InvHist EscProofs SolProofs HistProofs EscLive MatchProofs UnwrapLive WrapLive DemoHist PropClose PropRedeem PropLive PropEscrow PropHistory.

(** ** Circulation *)
Definition total (l : ledger) (ks : list pubkey) : N := fold_right (fun k s => balance l k + s) 0 ks.

Lemma escrowed_val e0 l u utp wtp : escrowed e0 l u utp wtp <= val utp u l (escrow_of e0 u utp wtp).
Proof.
  unfold escrowed, val. cbv zeta. remember (escrow_of e0 u utp wtp) as k eqn:Ek. clear Ek.
  remember (authority_of e0 (wrapped_mint_of e0 u wtp)) as a eqn:Ea. clear Ea.
  destruct (a_data (l k)) as [ | | |t| |]; try apply N.le_0_l.
  destruct (pk_eqb (a_owner (l k)) utp); [|apply N.le_0_l]. cbn [andb data_val].
  destruct (pk_eqb (t_mint t) u); [|apply N.le_0_l]. cbn [andb]. destruct (pk_eqb (t_owner t) a); [|apply N.le_0_l].
  unfold tok_val. lia.
Qed.
Lemma balance_val utp u l k t : token_account l k utp t -> t_mint t = u -> balance l k <= val utp u l k.
Proof.
  intros (O & D & _) M. unfold balance, val. rewrite O, D, pk_eqb_refl. cbn [data_val]. rewrite M, pk_eqb_refl. unfold tok_val. lia.
Qed.
Lemma total_val utp u l ks : (forall k, In k ks -> exists t, token_account l k utp t /\ t_mint t = u) -> total l ks <= sumf (val utp u l) ks.
Proof.
  induction ks as [|k ks IH]; intro H; cbn [total sumf fold_right]; [lia|].
  destruct (H k (or_introl eq_refl)) as (t & A & B). pose proof (balance_val _ _ _ _ _ A B).
  assert (X : total l ks <= sumf (val utp u l) ks) by (apply IH; intros k' Hk; apply H; right; exact Hk).
  unfold total, sumf in X |- *. lia.
Qed.

(** C75: in every state, the wrapped tokens of a mint (as SPL Token and as Token-2022) and what any set of other accounts
    holds of it never exceed its supply: nobody can ever bring the same token into circulation twice. *)
Theorem C75_circulation : forall e0 past l u utp mu ks,
  history e0 past l -> ever (no_permanent_delegate u) past l -> spl_or_t22 utp -> mint_account l u utp mu -> ~ native_mint u -> NoDup ks ->
  (forall k, In k ks -> (exists t, token_account l k utp t /\ t_mint t = u) /\ k <> escrow_of e0 u utp spl_token_id /\ k <> escrow_of e0 u utp t22_id) ->
  supply l (wrapped_mint_of e0 u spl_token_id) + supply l (wrapped_mint_of e0 u t22_id) + total l ks <= m_supply mu.
Proof.
  intros e0 past l u utp mu ks H NPD T M NN ND K. pose proof M as (O & D & _).
  assert (Nat : is_native_mint utp u = false).
  { destruct (is_native_mint utp u) eqn:Q; [exfalso; exact (NN (native_mint_b _ _ Q))|reflexivity]. }
  pose proof (inv_cons _ _ (history_inv _ _ _ H) utp u T Nat) as C.
  destruct (backed_l e0 past l u utp spl_token_id H (or_introl eq_refl) T O NPD) as [B1 _].
  destruct (backed_l e0 past l u utp t22_id H (or_intror eq_refl) T O NPD) as [B2 _].
  pose proof (escrowed_val e0 l u utp spl_token_id) as V1. pose proof (escrowed_val e0 l u utp t22_id) as V2.
  assert (NE : escrow_of e0 u utp spl_token_id <> escrow_of e0 u utp t22_id).
  { intro Q. apply escrow_of_inj in Q. destruct Q as (_ & _ & Q). discriminate Q. }
  remember (escrow_of e0 u utp spl_token_id) as k1 eqn:E1. remember (escrow_of e0 u utp t22_id) as k2 eqn:E2. clear E1 E2.
  remember (wrapped_mint_of e0 u spl_token_id) as w1 eqn:E1. remember (wrapped_mint_of e0 u t22_id) as w2 eqn:E2.
  assert (NDk : NoDup (k1 :: k2 :: ks)).
  { constructor; [|constructor; [|exact ND]].
    - intros [Q|Q]; [exact (NE (eq_sym Q))|]. destruct (K _ Q) as (_ & N1 & _). exact (N1 eq_refl).
    - intro Q. destruct (K _ Q) as (_ & _ & N2). exact (N2 eq_refl). }
  specialize (C _ NDk). cbn [sumf fold_right] in C. fold (sumf (val utp u l) ks) in C.
  assert (R : room utp u l u = m_supply mu) by (unfold room; rewrite O, D, pk_eqb_refl; cbn [data_cap]; rewrite pk_eqb_refl; reflexivity).
  rewrite R in C. assert (TV : total l ks <= sumf (val utp u l) ks) by (apply total_val; intros k Hk; exact (proj1 (K k Hk))).
  clear - B1 B2 V1 V2 C TV. lia.
Qed.
Print Assumptions C75_circulation.

(** C75: as long as there are wrapped tokens, there is the unwrapped mint, with at least as many tokens. *)
Theorem C75_exists : forall e0 past l u wtp,
  history e0 past l -> ever (no_permanent_delegate u) past l -> spl_or_t22 wtp -> ~ native_mint u -> 0 < supply l (wrapped_mint_of e0 u wtp) ->
  exists utp mu, spl_or_t22 utp /\ mint_account l u utp mu /\ supply l (wrapped_mint_of e0 u wtp) <= m_supply mu.
Proof.
  intros e0 past l u wtp H NPD T NN Pos. pose proof (history_inv _ _ _ H) as I.
  pose proof (history_backing e0 past l u wtp H T NPD) as B.
  assert (X : forall utp, token_program utp -> 0 < escrowed e0 l u utp wtp -> exists mu, mint_account l u utp mu).
  { intros utp Tu P. pose proof (escrowed_inv _ _ _ _ _ P) as (t & D & O & Mt & _ & Q). rewrite Q in P.
    destruct (held_mint e0 l utp _ t I Tu O D P) as [Nat|(m & Om & Dm & Hs)].
    - exfalso. rewrite Mt in Nat. exact (NN (native_mint_b _ _ Nat)).
    - rewrite Mt in Om, Dm. exists m. split; [exact Om|]. split; [exact Dm|]. destruct (m_init m) eqn:Hi; [reflexivity|exfalso].
      assert (T' : token_program (a_owner (l u))) by (rewrite Om; exact Tu). destruct (inv_mint _ _ _ _ I T' Dm) as (Z & _). specialize (Z Hi). clear - Z Hs P. lia. }
  assert (S : exists utp mu, spl_or_t22 utp /\ mint_account l u utp mu).
  { assert (C : 0 < escrowed e0 l u spl_token_id wtp \/ 0 < escrowed e0 l u t22_id wtp) by (clear - B Pos; lia).
    destruct C as [C|C]; [destruct (X spl_token_id (or_introl eq_refl) C) as [mu M]; exists spl_token_id|destruct (X t22_id (or_intror eq_refl) C) as [mu M]; exists t22_id];
      exists mu; split; [left; reflexivity|exact M|right; reflexivity|exact M]. }
  destruct S as (utp & mu & Tu & M). exists utp, mu. split; [exact Tu|]. split; [exact M|].
  assert (K : forall k, In k [] -> (exists t, token_account l k utp t /\ t_mint t = u) /\ k <> escrow_of e0 u utp spl_token_id /\ k <> escrow_of e0 u utp t22_id) by (intros k []).
  pose proof (C75_circulation e0 past l u utp mu [] H NPD Tu M NN (NoDup_nil _) K) as Z. cbn [total fold_right] in Z.
  clear - Z T. destruct T as [-> | ->]; lia.
Qed.
Print Assumptions C75_exists.

(** ** A mint with tokens in existence stays *)
Definition still (l' : ledger) (u q : pubkey) (m : mint) : Prop := exists m', mint_account l' u q m' /\ m_decimals m' = m_decimals m.
Lemma still_same l l' u q m : same_do (l u) (l' u) -> mint_account l u q m -> still l' u q m.
Proof. intros [D O] (O1 & D1 & I). exists m. split; [|reflexivity]. split; [congruence|]. split; [congruence|exact I]. Qed.
Lemma changes_still p ms l l' u q m :
  changes p ms l l' -> mint_account l u q m -> q = spl_token_id \/ p <> q \/ 0 < m_supply m -> still l' u q m.
Proof.
  intros C (O & D & I) N. destruct (C u) as [S|(Op & _ & X)]; [apply (still_same l); [exact S|split; [exact O|split; [exact D|exact I]]]|].
  assert (p = q) by congruence. subst p. rewrite D in X. remember (a_data (l' u)) as d' eqn:Ed. remember (a_owner (l' u)) as o' eqn:Eo.
  assert (FIN : forall m', d' = DMint m' -> o' = q -> m_init m' = true -> m_decimals m' = m_decimals m -> still l' u q m).
  { intros m' A1 A2 A3 A4. exists m'. split; [|exact A4]. split; [congruence|]. split; [congruence|exact A3]. }
  destruct X; try discriminate;
    try (match goal with X : unpack_uninit_mint _ = Ok _ |- _ => exfalso; cbn in X; rewrite I in X; discriminate X end);
    (match goal with H : DMint m = DMint ?m0 |- _ => assert (m0 = m) by congruence; subst m0; clear H end);
    try (eapply FIN; try reflexivity; assumption).
  exfalso. destruct N as [N|[N|N]]; [congruence|apply N; congruence|]. match goal with H : m_supply m = 0 |- _ => rewrite H in N end. discriminate N.
Qed.
Lemma world_still l l' u q m : token_program q -> world_change l l' -> mint_account l u q m -> still l' u q m.
Proof.
  intros T W M. pose proof M as (O & _). destruct (W u) as (A & _). assert (R : ruled (a_owner (l u))) by (rewrite O; exact (token_ruled _ T)).
  destruct (A R) as (A1 & A2 & _). apply (still_same l); [split; assumption|exact M].
Qed.
Lemma ata_still e p wallet mnt l l' u q m : token_program q -> ata_create e p wallet mnt l = Ok l' -> mint_account l u q m -> still l' u q m.
Proof.
  intros T H M. pose proof M as (O & _). destruct (ata_created _ _ _ _ _ _ H) as (Lo & _). pose proof (ata_unused _ _ _ _ _ _ H) as Ou.
  apply (still_same l); [|exact M]. rewrite Lo; [split; reflexivity|]. intros ->. rewrite Ou in O. apply (token_not_system _ T). congruence.
Qed.
Lemma still_trans l1 l2 u q m : still l1 u q m -> (forall m', mint_account l1 u q m' -> still l2 u q m') -> still l2 u q m.
Proof. intros (m1 & M1 & D1) H. destruct (H m1 M1) as (m2 & M2 & D2). exists m2. split; [exact M2|congruence]. Qed.
Lemma foreign_still l l' u q m : token_program q -> foreign_steps l l' -> mint_account l u q m -> still l' u q m.
Proof.
  intros T F. revert m. induction F as [l|e cpi ms ix l l1 l2 N X F IH|e wallet mnt l l1 l2 X F IH|l l1 l2 W F IH]; intros m M.
  - exists m. split; [exact M|reflexivity].
  - apply (still_trans l1); [|exact IH]. apply tok_exec_step in X. destruct X as (l3 & C & K & H).
    assert (l1 = l3).
    { destruct H as [H|(m0 & mnt & n & U & H)]; [exact H|]. unfold run_hook in H. destruct (ext_hook m0) as [r|] eqn:Q; [|congruence].
      pose proof (ext_hook_t22 _ _ _ _ (or_introl eq_refl) U Q). discriminate. }
    subst l3. apply (changes_still _ _ _ _ _ _ _ C M). destruct T as [-> | ->]; [left; reflexivity|right; left; discriminate].
  - apply (still_trans l1); [|exact IH]. exact (ata_still _ _ _ _ _ _ _ _ _ T X M).
  - apply (still_trans l1); [|exact IH]. exact (world_still _ _ _ _ _ T W M).
Qed.
Lemma hook_still e0 e m0 ms n l l' u q m : lawful e0 e -> token_program q -> run_hook e m0 ms n l = Ok l' -> mint_account l u q m -> still l' u q m.
Proof.
  intros [_ L] T H M. unfold run_hook in H. destruct (ext_hook m0) as [p|]; [|inversion H; subst; exists m; split; [exact M|reflexivity]].
  destruct (e_hook e p ms n l) as [x|] eqn:Q; [|discriminate]. cbn in H. destruct (balanced _ _ _); [|discriminate]. cbn in H. inversion H; subst.
  exact (foreign_still _ _ _ _ _ T (L _ _ _ _ _ Q) M).
Qed.
Lemma transfer_still e p cpi ms src mnt dst auth signers amount dec expf l l' u q m :
  Inv e l -> lawful e e -> token_program p -> token_program q ->
  tok_transfer_checked e p cpi ms src mnt dst auth signers amount dec expf l = Ok l' -> mint_account l u q m -> still l' u q m.
Proof.
  intros I L T Tq H M. destruct (pk_dec src dst) as [<-|Hne].
  - apply transfer_checked_inv in H.
    destruct H as (s & m1 & fee & s1 & _ & _ & _ & _ & _ & _ & _ & _ & _ & _ & _ & _ & [[_ ->]|(Q & _)]); [|contradiction].
    exists m. split; [exact M|reflexivity].
  - destruct (transfer_mid _ _ _ _ _ _ _ _ _ _ _ _ _ _ I T Hne H)
      as (s & d & m1 & fee & s1 & dx & l3 & Ds & Dd & _ & _ & _ & _ & _ & _ & _ & _ & _ & _ & _ & _ & Mv & I3 & TS & ms' & n & Hk).
    apply (still_trans l3); [|intros m2 M2; exact (hook_still _ _ _ _ _ _ _ _ _ _ L Tq Hk M2)].
    apply (still_same l); [|exact M]. destruct M as (_ & D & _).
    destruct (move_native_same_do _ _ _ _ _ _ _ _ Mv u) as [A B]. unfold transfer_ledger in A, B. cbv zeta in A, B.
    rewrite !upd_other in A, B by congruence. split; congruence.
Qed.
Lemma mint_to_still p ms mnt dst auth signers n l l' u q m :
  tok_mint_to p ms mnt dst auth signers n l = Ok l' -> mint_account l u q m -> still l' u q m.
Proof.
  intros H M. apply mint_to_inv in H. destruct H as (d & m1 & Ud & _ & _ & _ & Um & _ & _ & _ & _ & Od & Om & Ne & _ & _ & ->).
  apply unpack_tok_inv in Ud. destruct Ud as (Dd & _). apply unpack_mint_inv in Um. destruct Um as (Dm & Im & _).
  pose proof M as (O & D & I). destruct (pk_dec u mnt) as [->|N].
  - assert (m1 = m) by congruence. subst m1. eexists. split.
    + split; [rewrite upd_same; exact O|]. split; [rewrite upd_same; reflexivity|exact I].
    + reflexivity.
  - apply (still_same l); [|exact M]. rewrite upd_other by congruence. rewrite upd_other by congruence. split; reflexivity.
Qed.
Lemma wrap_still e c amount l l' u q m :
  Inv e l -> lawful e e -> c_prog c = tw_id -> token_program q -> process_wrap e c amount l = Ok l' -> mint_account l u q m -> still l' u q m.
Proof.
  intros I L Hc T H M. destruct (map i_key (c_infos c)) as [|r [|w [|a [|up [|wp [|s [|u' [|esc [|ta rest]]]]]]]]] eqn:Ek;
    try (unfold process_wrap in H; inv_ok; destruct (c_infos c) as [|? [|? [|? [|? [|? [|? [|? [|? [|? ?]]]]]]]]]; discriminate).
  destruct (process_wrap_inv _ _ _ _ _ _ _ _ _ _ _ _ _ _ _ Ek Hc H)
    as (Hn0 & Tu & Tw & Hw & Ha & He & et & um & ms & extra & l1 & msm & Uet & Wet & Uum & Hfee & Hms & Cp & Ht & _ & _ & Hm).
  apply (still_trans l1); [exact (transfer_still _ _ _ _ _ _ _ _ _ _ _ _ _ _ _ _ _ I L Tu T Ht M)|].
  intros m' M'. exact (mint_to_still _ _ _ _ _ _ _ _ _ _ _ _ Hm M').
Qed.
Lemma unwrap_still e c amount l l' u q m :
  Inv e l -> lawful e e -> no_tw_signer (c_infos c) -> c_prog c = tw_id -> token_program q -> 0 < m_supply m ->
  process_unwrap e c amount l = Ok l' -> mint_account l u q m -> still l' u q m.
Proof.
  intros I L NS Hc T P H M. destruct (map i_key (c_infos c)) as [|esc [|r [|a [|u' [|wp [|up [|s [|w [|ta rest]]]]]]]]] eqn:Ek;
    try (unfold process_unwrap in H; inv_ok; destruct (c_infos c) as [|? [|? [|? [|? [|? [|? [|? [|? [|? ?]]]]]]]]]; discriminate).
  destruct (process_unwrap_inv _ _ _ _ _ _ _ _ _ _ _ _ _ _ _ Ek Hc H)
    as (Hn0 & Tu & Tw & Hw & Ha & He & msk & msb & l1 & um & extra & ms & _ & Cp & Hb & _ & _ & _ & Ht).
  pose proof (plain_unsigned _ _ NS Cp) as NM.
  pose proof (changes_burn _ _ _ _ _ _ _ _ _ _ Hb) as C1. pose proof (conserves_burn _ _ _ _ _ _ _ _ _ _ Hb) as K1.
  pose proof (changes_inv _ _ _ _ _ I Tw NM C1 K1) as I1.
  apply (still_trans l1); [exact (changes_still _ _ _ _ _ _ _ C1 M (or_intror (or_intror P)))|].
  intros m' M'. exact (transfer_still _ _ _ _ _ _ _ _ _ _ _ _ _ _ _ _ _ I1 L Tu T Ht M').
Qed.
Lemma create_still e c idem l l' u q m :
  c_prog c = tw_id -> token_program q -> process_create_mint default_customizer e c idem l = Ok l' -> mint_account l u q m -> still l' u q m.
Proof.
  intros Hc T H M. destruct (map i_key (c_infos c)) as [|w [|b [|u' [|x [|p rest]]]]] eqn:Ek;
    try (unfold process_create_mint in H; destruct (c_infos c) as [|? [|? [|? [|? [|? ?]]]]]; discriminate).
  destruct (process_create_inv _ _ _ _ _ _ _ _ _ _ _ Ek Hc H) as (_ & _ & _ & [(_ & _ & _ & _ & ->)|X]); [exists m; split; [exact M|reflexivity]|].
  destruct X as (_ & _ & Ow & Ob & _ & _ & _ & _ & _ & mu & _ & _ & _ & Lo). apply (still_same l); [|exact M]. destruct M as (O & _).
  rewrite Lo; [split; reflexivity| |]; intros ->; apply (token_not_system _ T); congruence.
Qed.
Lemma close_still e c l l' u q m :
  c_prog c = tw_id -> 0 < m_supply m -> process_close_stuck_escrow e c l = Ok l' -> mint_account l u q m -> still l' u q m.
Proof.
  intros Hc P H M. destruct (map i_key (c_infos c)) as [|esc [|d [|u' [|w [|a [|p rest]]]]]] eqn:Ek;
    try (unfold process_close_stuck_escrow in H; destruct (c_infos c) as [|? [|? [|? [|? [|? [|? ?]]]]]]; discriminate).
  destruct (process_close_inv _ _ _ _ _ _ _ _ _ _ _ Ek Hc H) as (Oe & _ & _ & _ & He & et & m1 & msc & Ue & _ & Za & _ & _ & _ & _ & _ & _ & Ht).
  exact (changes_still _ _ _ _ _ _ _ (changes_tok_close _ _ _ _ _ _ _ _ _ Ht) M (or_intror (or_intror P))).
Qed.
Lemma sync_t22_still e c l l' u q m :
  c_prog c = tw_id -> process_sync_metadata_to_token_2022 e c l = Ok l' -> mint_account l u q m -> still l' u q m.
Proof.
  intros Hc H M. destruct (map i_key (c_infos c)) as [|w [|a [|u' [|p rest]]]] eqn:Ek;
    try (unfold process_sync_metadata_to_token_2022 in H; destruct (c_infos c) as [|? [|? [|? [|? ?]]]]; discriminate).
  destruct (process_sync_t22_inv _ _ _ _ _ _ _ _ _ Ek Hc H) as (_ & Ow & _ & _ & um & m1 & _ & Um & X).
  apply pod_unpack_mint_inv in Um. destruct Um as [Dm _]. destruct (pk_dec u w) as [->|N].
  - pose proof M as (O & D & I). assert (m1 = m) by congruence. subst m1.
    destruct X as [(t & _ & Lo & len & _ & Lw)|(_ & _ & _ & Lo & Lw)].
    + eexists. split; [split; [rewrite Lw; exact O|split; [rewrite Lw; reflexivity|exact I]]|reflexivity].
    + cbv zeta in Lw. eexists. split; [split; [rewrite Lw; exact O|split; [rewrite Lw; reflexivity|exact I]]|reflexivity].
  - apply (still_same l); [|exact M]. destruct X as [(t & _ & Lo & _)|(_ & _ & _ & Lo & _)]; rewrite (Lo _ N); split; reflexivity.
Qed.
Lemma sync_spl_still e c l l' u q m :
  c_prog c = tw_id -> token_program q -> process_sync_metadata_to_spl_token e c l = Ok l' -> mint_account l u q m -> still l' u q m.
Proof.
  intros Hc T H M. destruct (map i_key (c_infos c)) as [|md [|a [|w [|u' [|x [|sy [|rn rest]]]]]]] eqn:Ek;
    try (unfold process_sync_metadata_to_spl_token in H; destruct (c_infos c) as [|? [|? [|? [|? [|? [|? [|? ?]]]]]]]; discriminate).
  destruct (process_sync_spl_inv _ _ _ _ _ _ _ _ _ _ _ _ Ek Hc H) as (_ & _ & _ & _ & _ & _ & um & d & _ & _ & X).
  apply (still_same l); [|exact M]. destruct M as (O & _).
  destruct X as [(_ & Om & _ & Oa & _ & _ & m1 & _ & _ & ->)|(_ & Om & old & _ & _ & _ & _ & ->)]; cbv zeta.
  - assert (N1 : u <> md) by (intros ->; rewrite Om in O; destruct T as [E|E]; rewrite E in O; discriminate O).
    assert (N2 : u <> a) by (intros ->; rewrite Oa in O; destruct T as [E|E]; rewrite E in O; discriminate O).
    rewrite !upd_other by congruence. split; reflexivity.
  - assert (N1 : u <> md) by (intros ->; rewrite Om in O; destruct T as [E|E]; rewrite E in O; discriminate O). rewrite !upd_other by congruence. split; reflexivity.
Qed.
Lemma set_pointer_still e c v l l' u q m :
  c_prog c = tw_id -> token_program q -> process_set_canonical_pointer e c v l = Ok l' -> mint_account l u q m -> still l' u q m.
Proof.
  intros Hc T H M. destruct (map i_key (c_infos c)) as [|a [|p [|u' [|x rest]]]] eqn:Ek;
    try (unfold process_set_canonical_pointer in H; destruct (c_infos c) as [|? [|? [|? [|? ?]]]]; discriminate).
  destruct (process_set_pointer_inv _ _ _ _ _ _ _ _ _ _ Ek Hc H) as (_ & _ & _ & _ & _ & Op & _ & Lo).
  apply (still_same l); [|exact M]. destruct M as (O & _). rewrite Lo; [split; reflexivity|].
  intros ->. destruct Op as [(_ & Op & _)|(_ & Op)]; rewrite Op in O; destruct T as [E|E]; rewrite E in O; discriminate O.
Qed.
(** Any mint with tokens in existence outlives any step by anybody. *)
Lemma step_still e0 a l l' u q m :
  Inv e0 l -> step e0 a l l' -> token_program q -> 0 < m_supply m -> mint_account l u q m -> still l' u q m.
Proof.
  intros I S T P M. destruct S as [e accounts input l l' L NS R|e p cpi accounts ix l l' L Tp NS X|e p wallet mnt l l' L Tp X|l l' W].
  - pose proof L as [C _]. pose proof (Inv_curve _ _ _ C I) as Ie. pose proof (lawful_self _ _ L) as Le.
    unfold runs, process_instruction in R. apply bind_ok in R. destruct R as (i & Ei & H).
    assert (CP : c_prog (mkCtx tw_id accounts) = tw_id) by reflexivity.
    assert (NS' : no_tw_signer (c_infos (mkCtx tw_id accounts))) by exact NS.
    destruct i; cbn [process_instr map_instr] in H.
    + exact (create_still _ _ _ _ _ _ _ _ CP T H M).
    + exact (wrap_still _ _ _ _ _ _ _ _ Ie Le CP T H M).
    + exact (unwrap_still _ _ _ _ _ _ _ _ Ie Le NS' CP T P H M).
    + exact (close_still _ _ _ _ _ _ _ CP P H M).
    + exact (sync_t22_still _ _ _ _ _ _ _ CP H M).
    + exact (sync_spl_still _ _ _ _ _ _ _ CP T H M).
    + exact (set_pointer_still _ _ _ _ _ _ _ _ CP T H M).
  - apply tok_exec_step in X. destruct X as (l3 & C & K & H). apply (still_trans l3); [exact (changes_still _ _ _ _ _ _ _ C M (or_intror (or_intror P)))|].
    intros m' M'. destruct H as [->|(m1 & mnt & n & _ & H)]; [exists m'; split; [exact M'|reflexivity]|exact (hook_still _ _ _ _ _ _ _ _ _ _ L T H M')].
  - exact (ata_still _ _ _ _ _ _ _ _ _ T X M).
  - exact (world_still _ _ _ _ _ T W M).
Qed.

(** C75: while there are wrapped tokens, nobody can close the unwrapped mint or change its decimals: it is still there after
    any action of anybody, under the same program and with the same decimals. *)
Theorem C75_outlives : forall e0 past l a l' u utp wtp mu,
  history e0 past l -> ever (no_permanent_delegate u) past l -> spl_or_t22 wtp -> spl_or_t22 utp -> ~ native_mint u ->
  0 < supply l (wrapped_mint_of e0 u wtp) -> mint_account l u utp mu -> step e0 a l l' ->
  exists mu', mint_account l' u utp mu' /\ m_decimals mu' = m_decimals mu.
Proof.
  intros e0 past l a l' u utp wtp mu H NPD Tw Tu NN P M S.
  destruct (C75_exists e0 past l u wtp H NPD Tw NN P) as (q & m & _ & (_ & D & _) & Le).
  assert (Pm : 0 < m_supply mu) by (destruct M as (_ & D' & _); assert (X : m = mu) by (clear - D D'; congruence); subst m; clear - P Le; lia).
  exact (step_still e0 a l l' u utp mu (history_inv _ _ _ H) S Tu Pm M).
Qed.
Print Assumptions C75_outlives.
Theorem C75_held : forall later e0 past x l u utp wtp mu,
  history e0 (later ++ x :: past) l -> ever (no_permanent_delegate u) (later ++ x :: past) l -> spl_or_t22 wtp -> spl_or_t22 utp -> ~ native_mint u ->
  (forall y, In y (later ++ [x]) -> 0 < supply y (wrapped_mint_of e0 u wtp)) -> mint_account x u utp mu ->
  exists mu', mint_account l u utp mu' /\ m_decimals mu' = m_decimals mu.
Proof.
  induction later as [|y later IH]; intros e0 past x l u utp wtp mu H NPD Tw Tu NN P M; cbn [app] in H, NPD, P; inversion H as [|? ? a ? H0 S]; subst.
  - apply (C75_outlives e0 past x a l u utp wtp mu H0); try assumption; [intros z Hz; apply NPD; right; exact Hz|apply P; left; reflexivity].
  - assert (NPD0 : ever (no_permanent_delegate u) (later ++ x :: past) y) by (intros z Hz; apply NPD; right; exact Hz).
    destruct (IH e0 past x y u utp wtp mu H0 NPD0 Tw Tu NN) as (m1 & M1 & D1); [intros z Hz; apply P; right; exact Hz|exact M|].
    destruct (C75_outlives e0 _ y a l u utp wtp m1 H0 NPD0 Tw Tu NN (P y (or_introl eq_refl)) M1 S) as (m2 & M2 & D2).
    exists m2. split; [exact M2|congruence].
Qed.
Print Assumptions C75_held.

(** ** Wrapped mints come into being by CreateMint only, with the decimals of the unwrapped mint *)
Lemma blank_same (a a' : account) : same_do a a' -> blank a -> blank a'.
Proof. intros [D O] [B1 B2]. split; congruence. Qed.
Lemma mint_to_blank p ms mnt dst auth signers n l l' k : tok_mint_to p ms mnt dst auth signers n l = Ok l' -> blank (l k) -> blank (l' k).
Proof.
  intros H B. apply mint_to_inv in H. destruct H as (d & m1 & Ud & _ & _ & _ & Um & _ & _ & _ & _ & _ & _ & _ & _ & _ & ->).
  apply unpack_tok_inv in Ud. destruct Ud as (Dd & _). apply unpack_mint_inv in Um. destruct Um as (Dm & _). pose proof B as [B1 _].
  rewrite upd_other by congruence. rewrite upd_other by congruence. exact B.
Qed.
Lemma other_blank e c l l' k i :
  Inv e l -> lawful e e -> no_tw_signer (c_infos c) -> c_prog c = tw_id -> is_tw_pda k = true ->
  (forall w, k <> authority_of e w) -> (forall v, k <> canonical_pointer_of e v) ->
  (forall idem, i <> CreateMint idem) -> process_instr e c i l = Ok l' -> blank (l k) -> blank (l' k).
Proof.
  intros I L NS Hc P KA KC NC H B. destruct i; cbn [process_instr map_instr] in H.
  - exfalso. exact (NC _ eq_refl).
  - destruct (map i_key (c_infos c)) as [|r [|w [|a [|up [|wp [|s [|u' [|esc [|ta rest]]]]]]]]] eqn:Ek;
      try (unfold process_wrap in H; inv_ok; destruct (c_infos c) as [|? [|? [|? [|? [|? [|? [|? [|? [|? ?]]]]]]]]]; discriminate).
    destruct (process_wrap_inv _ _ _ _ _ _ _ _ _ _ _ _ _ _ _ Ek Hc H)
      as (Hn0 & Tu & Tw & Hw & Ha & He & et & um & ms & extra & l1 & msm & Uet & Wet & Uum & Hfee & Hms & Cp & Ht & _ & _ & Hm).
    destruct (transfer_any_good _ _ _ _ _ _ _ _ _ _ _ _ _ _ I L Tu Ht) as (_ & So & _).
    apply (mint_to_blank _ _ _ _ _ _ _ _ _ k Hm). apply (proj1 (softens_blank _ _ (So k P))). exact B.
  - destruct (map i_key (c_infos c)) as [|esc [|r [|a [|u' [|wp [|up [|s [|w [|ta rest]]]]]]]]] eqn:Ek;
      try (unfold process_unwrap in H; inv_ok; destruct (c_infos c) as [|? [|? [|? [|? [|? [|? [|? [|? [|? ?]]]]]]]]]; discriminate).
    destruct (process_unwrap_inv _ _ _ _ _ _ _ _ _ _ _ _ _ _ _ Ek Hc H)
      as (Hn0 & Tu & Tw & Hw & Ha & He & msk & msb & l1 & um & extra & ms & _ & Cp & Hb & _ & _ & _ & Ht).
    pose proof (plain_unsigned _ _ NS Cp) as NM.
    pose proof (changes_burn _ _ _ _ _ _ _ _ _ _ Hb) as C1. pose proof (conserves_burn _ _ _ _ _ _ _ _ _ _ Hb) as K1.
    pose proof (changes_inv _ _ _ _ _ I Tw NM C1 K1) as I1.
    destruct (transfer_any_good _ _ _ _ _ _ _ _ _ _ _ _ _ _ I1 L Tu Ht) as (_ & So & _).
    apply (proj1 (softens_blank _ _ (So k P))). apply (proj1 (softens_blank _ _ (changes_soft _ _ _ _ _ k I Tw NM C1 P))). exact B.
  - destruct (map i_key (c_infos c)) as [|esc [|d [|u' [|w [|a [|p rest]]]]]] eqn:Ek;
      try (unfold process_close_stuck_escrow in H; destruct (c_infos c) as [|? [|? [|? [|? [|? [|? ?]]]]]]; discriminate).
    destruct (process_close_inv _ _ _ _ _ _ _ _ _ _ _ Ek Hc H) as (Oe & _ & _ & _ & He & et & m & msc & Ue & _ & Za & _ & _ & _ & _ & _ & _ & Ht).
    unfold pod_unpack_tok in Ue. destruct (a_data (l esc)) as [|  | |t| |] eqn:De; try discriminate; [destruct (_ && _); discriminate|].
    destruct (tok_close_tok_inv _ _ _ _ _ _ _ _ _ _ De Ht) as (_ & _ & _ & _ & _ & _ & _ & _ & Ld & Lo).
    assert (N1 : k <> esc) by (intros ->; destruct B as [B _]; rewrite De in B; discriminate B).
    apply (blank_same (l k)); [|exact B]. destruct (pk_dec k d) as [->|N2]; [rewrite Ld|rewrite Lo by assumption]; split; reflexivity.
  - destruct (map i_key (c_infos c)) as [|w [|a [|u' [|p rest]]]] eqn:Ek;
      try (unfold process_sync_metadata_to_token_2022 in H; destruct (c_infos c) as [|? [|? [|? [|? ?]]]]; discriminate).
    destruct (process_sync_t22_inv _ _ _ _ _ _ _ _ _ Ek Hc H) as (_ & Ow & _ & _ & um & m1 & _ & _ & X).
    assert (N : k <> w) by (intros ->; destruct B as [_ B]; rewrite Ow in B; discriminate B).
    apply (blank_same (l k)); [|exact B]. destruct X as [(t & _ & Lo & _)|(_ & _ & _ & Lo & _)]; rewrite (Lo _ N); split; reflexivity.
  - destruct (map i_key (c_infos c)) as [|md [|a [|w [|u' [|x [|sy [|rn rest]]]]]]] eqn:Ek;
      try (unfold process_sync_metadata_to_spl_token in H; destruct (c_infos c) as [|? [|? [|? [|? [|? [|? [|? ?]]]]]]]; discriminate).
    destruct (process_sync_spl_inv _ _ _ _ _ _ _ _ _ _ _ _ Ek Hc H) as (_ & _ & _ & Ha & Hmd & _ & um & d & _ & _ & X).
    assert (N1 : k <> md) by (intro Q; rewrite Q, Hmd in P; discriminate P).
    assert (N2 : k <> a) by (rewrite Ha; apply KA).
    apply (blank_same (l k)); [|exact B].
    destruct X as [(_ & _ & _ & _ & _ & _ & m1 & _ & _ & ->)|(_ & _ & old & _ & _ & _ & _ & ->)]; cbv zeta; rewrite !upd_other by congruence; split; reflexivity.
  - destruct (map i_key (c_infos c)) as [|a [|p [|u' [|x rest]]]] eqn:Ek;
      try (unfold process_set_canonical_pointer in H; destruct (c_infos c) as [|? [|? [|? [|? ?]]]]; discriminate).
    destruct (process_set_pointer_inv _ _ _ _ _ _ _ _ _ _ Ek Hc H) as (_ & _ & Hp & _ & _ & _ & _ & Lo).
    assert (N : k <> p) by (rewrite Hp; apply KC). rewrite (Lo _ N). exact B.
Qed.
Lemma create_born e c idem l l' u wtp :
  c_prog c = tw_id -> process_create_mint default_customizer e c idem l = Ok l' ->
  let w := wrapped_mint_of e u wtp in
  blank (l w) -> blank (l' w) \/
  exists mu m, token_program (a_owner (l u)) /\ mint_data l u mu /\ l' u = l u /\ a_data (l' w) = DMint m /\ m_decimals m = m_decimals mu.
Proof.
  intros Hc H w B. destruct (map i_key (c_infos c)) as [|w1 [|b1 [|u1 [|x [|p rest]]]]] eqn:Ek;
    try (unfold process_create_mint in H; destruct (c_infos c) as [|? [|? [|? [|? [|? ?]]]]]; discriminate).
  destruct (process_create_inv _ _ _ _ _ _ _ _ _ _ _ Ek Hc H) as (Hw & Hb & To & [(_ & _ & _ & _ & ->)|X]); [left; exact B|].
  destruct X as (_ & _ & Ow & Ob & _ & _ & _ & _ & _ & mu & Um & Lw & _ & Lo).
  destruct (pk_dec w w1) as [Q|N].
  - right. assert (Eu : u = u1) by (unfold w in Q; rewrite Hw in Q; exact (proj1 (wrapped_mint_of_inj _ _ _ _ _ Q))). rewrite <- Eu in To, Um. exists mu. eexists.
    split; [exact To|]. split; [exact (pod_mint_data _ _ _ Um)|]. split.
    + apply Lo; intros Q2; rewrite Q2 in To; apply (token_not_system _ To); assumption.
    + rewrite Q, Lw. cbn [a_data]. split; [reflexivity|]. reflexivity.
  - left. rewrite Lo; [exact B|exact N|]. rewrite Hb. unfold w. apply wrapped_neq_backpointer.
Qed.
Lemma step_born e0 a l l' u wtp :
  Inv e0 l -> step e0 a l l' ->
  let w := wrapped_mint_of e0 u wtp in
  blank (l w) -> blank (l' w) \/
  exists mu m, token_program (a_owner (l u)) /\ mint_data l u mu /\ l' u = l u /\ a_data (l' w) = DMint m /\ m_decimals m = m_decimals mu.
Proof.
  intros I S w B. assert (P : is_tw_pda w = true) by apply is_tw_pda_wrapped.
  destruct S as [e accounts input l l' L NS R|e p cpi accounts ix l l' L Tp NS X|e p wallet mnt l l' L Tp X|l l' W].
  - pose proof L as [C _]. pose proof (Inv_curve _ _ _ C I) as Ie. pose proof (lawful_self _ _ L) as Le.
    unfold runs, process_instruction in R. apply bind_ok in R. destruct R as (i & Ei & H).
    assert (CP : c_prog (mkCtx tw_id accounts) = tw_id) by reflexivity.
    assert (NS' : no_tw_signer (c_infos (mkCtx tw_id accounts))) by exact NS.
    assert (Ew : w = wrapped_mint_of e u wtp) by (unfold w; apply wrapped_mint_of_curve; exact C).
    destruct i as [idem| | | | | |] eqn:Qi.
    + cbn [process_instr map_instr] in H. rewrite Ew in B |- *. exact (create_born e _ idem l l' u wtp CP H B).
    + left. apply (other_blank e _ l l' w _ Ie Le NS' CP P) with (5 := B) (4 := H); [rewrite Ew; intro v; apply wrapped_neq_authority|rewrite Ew; intro v; apply wrapped_neq_canonical|intros idem Q; discriminate Q].
    + left. apply (other_blank e _ l l' w _ Ie Le NS' CP P) with (5 := B) (4 := H); [rewrite Ew; intro v; apply wrapped_neq_authority|rewrite Ew; intro v; apply wrapped_neq_canonical|intros idem Q; discriminate Q].
    + left. apply (other_blank e _ l l' w _ Ie Le NS' CP P) with (5 := B) (4 := H); [rewrite Ew; intro v; apply wrapped_neq_authority|rewrite Ew; intro v; apply wrapped_neq_canonical|intros idem Q; discriminate Q].
    + left. apply (other_blank e _ l l' w _ Ie Le NS' CP P) with (5 := B) (4 := H); [rewrite Ew; intro v; apply wrapped_neq_authority|rewrite Ew; intro v; apply wrapped_neq_canonical|intros idem Q; discriminate Q].
    + left. apply (other_blank e _ l l' w _ Ie Le NS' CP P) with (5 := B) (4 := H); [rewrite Ew; intro v; apply wrapped_neq_authority|rewrite Ew; intro v; apply wrapped_neq_canonical|intros idem Q; discriminate Q].
    + left. apply (other_blank e _ l l' w _ Ie Le NS' CP P) with (5 := B) (4 := H); [rewrite Ew; intro v; apply wrapped_neq_authority|rewrite Ew; intro v; apply wrapped_neq_canonical|intros idem Q; discriminate Q].
  - left. destruct (tok_exec_good _ _ _ _ _ _ _ _ L I Tp NS X) as (_ & So & _). apply (proj1 (softens_blank _ _ (So w P))). exact B.
  - left. destruct (ata_good _ _ _ _ _ _ _ I Tp X) as (_ & So & _). apply (proj1 (softens_blank _ _ (So w P))). exact B.
  - left. destruct (world_good _ _ _ I W) as (_ & So & _). apply (proj1 (softens_blank _ _ (So w P))). exact B.
Qed.
Definition denominated (l : ledger) (u w : pubkey) : Prop :=
  blank (l w) \/ exists up mu mw, token_program up /\ mint_account l u up mu /\ ext_close_authority mu = None /\
    a_data (l w) = DMint mw /\ m_decimals mw = m_decimals mu.
Lemma history_denominated e0 past l u wtp :
  history e0 past l -> ever (uncloseable u) past l -> denominated l u (wrapped_mint_of e0 u wtp).
Proof.
  induction 1 as [l G|past l a l' H IH S]; intro EV.
  - left. destruct G as (_ & _ & _ & _ & PD). apply PD. left. apply is_tw_pda_wrapped.
  - assert (F : denominated l u (wrapped_mint_of e0 u wtp)) by (apply IH; intros x Hx; apply EV; right; exact Hx). clear IH.
    assert (U : uncloseable u l) by (apply EV; right; left; reflexivity).
    pose proof (history_inv _ _ _ H) as I. destruct F as [B|(up & mu & mw & T & M & Cl & D & Q)].
    + destruct (step_born e0 a l l' u wtp I S B) as [B'|(mu & m & T & [Du Iu] & Su & D & Q)]; [left; exact B'|right].
      exists (a_owner (l u)), mu, m. split; [exact T|]. split; [split; [rewrite Su; reflexivity|split; [rewrite Su; exact Du|exact Iu]]|].
      split; [|split; [exact D|exact Q]]. destruct T as [T|T].
      * pose proof (spl_extless e0 l u mu I T Du) as X. unfold ext_close_authority. rewrite X. reflexivity.
      * apply U. split; [exact T|split; [exact Du|exact Iu]].
    + right. assert (MK : mints_kept l l').
      { destruct (step_kept _ _ _ _ I (history_esc _ _ _ H) S) as [[K _]|(e & wallet & mnt & X)]; [exact K|exact (ata_mints _ _ _ _ _ _ X)]. }
      destruct (MK u up mu T M Cl) as (mu' & M' & Cl' & _ & Dc).
      destruct (step_inv _ _ _ _ I S) as (_ & La & _). destruct (La (wrapped_mint_of e0 u wtp) (is_tw_pda_wrapped _ _ _)) as [_ Lm].
      destruct (Lm mw D) as (mw' & D' & Dw). exists up, mu', mw'. split; [exact T|]. split; [exact M'|]. split; [exact Cl'|]. split; [exact D'|].
      rewrite Dw, Dc. exact Q.
Qed.
(** C75: a wrapped mint has the decimals of its unwrapped mint, for ever, if the latter can never be closed. *)
Theorem C75_decimals : forall e0 past l u utp wtp mu mw,
  history e0 past l -> ever (uncloseable u) past l ->
  mint_account l u utp mu -> mint_account l (wrapped_mint_of e0 u wtp) wtp mw -> m_decimals mw = m_decimals mu.
Proof.
  intros e0 past l u utp wtp mu mw H EV (_ & Du & _) (_ & Dw & _).
  destruct (history_denominated e0 past l u wtp H EV) as [[B _]|(up & m1 & m2 & _ & (_ & D1 & _) & _ & D2 & Q)].
  - exfalso. rewrite Dw in B. discriminate B.
  - assert (E1 : m1 = mu) by (clear - Du D1; congruence). rewrite D2 in Dw.
    assert (E2 : m2 = mw) by (clear - Dw; injection Dw as X; exact X). subst m1 m2. exact Q.
Qed.
Print Assumptions C75_decimals.

(** ** The hypotheses are met, and needed *)
(** 1000 tokens were minted, 200 of them are wrapped, Alice has the other 800: the bound is attained. *)
Example C75_example : exists mu ta, history demo_env (past_of story) (now_of story) /\
  ever (no_permanent_delegate d_u) (past_of story) (now_of story) /\ ever (uncloseable d_u) (past_of story) (now_of story) /\
  mint_account (now_of story) d_u spl_token_id mu /\ ~ native_mint d_u /\ m_supply mu = 1000 /\
  token_account (now_of story) d_alice_u spl_token_id ta /\ t_mint ta = d_u /\
  supply (now_of story) (d_w spl_token_id) = 0 /\ supply (now_of story) (d_w t22_id) = 200 /\ total (now_of story) [d_alice_u] = 800.
Proof.
  eexists. eexists. split; [apply played_history; vm_compute; reflexivity|]. split; [exact story_no_pd|].
  split; [apply uncloseable_b; vm_compute; reflexivity|].
  split; [split; [vm_compute; reflexivity|split; [vm_compute; reflexivity|vm_compute; reflexivity]]|].
  split; [intros [Q|Q]; discriminate Q|]. split; [reflexivity|].
  split; [split; [vm_compute; reflexivity|split; [vm_compute; reflexivity|vm_compute; discriminate]]|]. split; [reflexivity|].
  split; [vm_compute; reflexivity|]. split; vm_compute; reflexivity.
Qed.
(** From the Wrap on there were wrapped tokens at all times ([C75_held] applies from there to the end). *)
Example C75_held_example : exists later x past mu, past_of story = later ++ x :: past /\ later <> [] /\
  (forall y, In y (later ++ [x]) -> 0 < supply y (wrapped_mint_of demo_env d_u t22_id)) /\ mint_account x d_u spl_token_id mu /\ m_decimals mu = 6.
Proof.
  exists (firstn 1 (past_of story)), (nth 1 (past_of story) g0), (skipn 2 (past_of story)). eexists.
  assert (G : forall (p : list ledger) d, (2 <= length p)%nat -> p = firstn 1 p ++ nth 1 p d :: skipn 2 p /\ firstn 1 p <> []).
  { intros [|p1 [|p2 p]] d Hl; cbn in *; [lia|lia|]. split; [reflexivity|discriminate]. }
  destruct (G (past_of story) g0) as [G1 G2]; [vm_compute; lia|]. split; [exact G1|]. split; [exact G2|].
  split.
  - assert (Q : forallb (fun y => 0 <? supply y (wrapped_mint_of demo_env d_u t22_id)) (firstn 1 (past_of story) ++ [nth 1 (past_of story) g0]) = true) by (vm_compute; reflexivity).
    rewrite forallb_forall in Q. intros y Hy. apply N.ltb_lt. exact (Q y Hy).
  - split; [split; [vm_compute; reflexivity|split; [vm_compute; reflexivity|vm_compute; reflexivity]]|]. reflexivity.
Qed.
(** A mint with a close authority: wrapped while it has 6 decimals and no supply, then closed and re-created with 9. *)
Definition redenom : list cmd :=
  [ CFund d_alice 5000; CFund (d_w spl_token_id) 4000; CFund (d_b spl_token_id) 4000; CFund (d_esc t22_id spl_token_id) 5000;
    CAlloc d_u (mint_space [MxMintCloseAuthority (Some d_mintauth)]) 9000 t22_id;
    CTok t22_id [meta_w d_u false] (TiInitExt (MxMintCloseAuthority (Some d_mintauth)));
    CTok t22_id [meta_w d_u false] (TiInitializeMint2 6 d_mintauth None);
    CTw x_create; CAta t22_id (d_a spl_token_id) d_u;
    CTok t22_id [meta_w d_u false; meta_w d_alice false; meta_r d_mintauth true] TiCloseAccount;
    CAlloc d_u 82 9000 t22_id;
    CTok t22_id [meta_w d_u false] (TiInitializeMint2 9 d_mintauth None);
    CAlloc d_alice_u 165 5000 t22_id; CAlloc d_alice_w 165 5000 spl_token_id;
    CTok t22_id [meta_w d_alice_u false; meta_r d_u false] (TiInitializeAccount d_alice false);
    CTok spl_token_id [meta_w d_alice_w false; meta_r (d_w spl_token_id) false] (TiInitializeAccount d_alice false);
    CTok t22_id [meta_w d_u false; meta_w d_alice_u false; meta_r d_mintauth true] (TiMintTo 1000);
    CTw (x_wrap 40) ].
Example redenom_playable : playable redenom = true.
Proof. vm_compute. reflexivity. Qed.
(** C75, finding: without [uncloseable] the decimals come apart.  40 wrapped tokens of a mint with 6 decimals stand for 40
    tokens of a mint with 9: what a wallet shows as the same quantity differs by a factor of 1000 - and the wrapped mint
    will have its 6 decimals in every future. *)
Theorem C75_redenominated_refuted : exists past l mu mw,
  history demo_env past l /\ ever (no_permanent_delegate d_u) past l /\
  mint_account l d_u t22_id mu /\ m_exts mu = [] /\ m_decimals mu = 9 /\
  mint_account l (d_w spl_token_id) spl_token_id mw /\ m_decimals mw = 6 /\
  supply l (d_w spl_token_id) = 40 /\ balance l (d_esc t22_id spl_token_id) = 40 /\ balance l d_alice_w = 40 /\
  (forall past' l', history demo_env past' l' -> In l (l' :: past') ->
     exists mw', mint_account l' (d_w spl_token_id) spl_token_id mw' /\ m_decimals mw' = 6).
Proof.
  exists (past_of redenom), (now_of redenom). eexists. eexists.
  split; [apply played_history; vm_compute; reflexivity|].
  split. { assert (Q : forallb (fun x => match a_data (x d_u) with DMint m => match ext_permanent_delegate m with None => true | Some _ => false end | _ => true end)
                (now_of redenom :: past_of redenom) = true) by (vm_compute; reflexivity).
    rewrite forallb_forall in Q. intros x Hx m (_ & D & _). specialize (Q x Hx). rewrite D in Q. destruct (ext_permanent_delegate m); [discriminate Q|reflexivity]. }
  split; [split; [vm_compute; reflexivity|split; [vm_compute; reflexivity|vm_compute; reflexivity]]|]. split; [reflexivity|]. split; [reflexivity|].
  assert (M : exists mw, mint_account (now_of redenom) (d_w spl_token_id) spl_token_id mw /\ m_decimals mw = 6).
  { eexists. split; [split; [vm_compute; reflexivity|split; [vm_compute; reflexivity|vm_compute; reflexivity]]|]. reflexivity. }
  split; [split; [vm_compute; reflexivity|split; [vm_compute; reflexivity|vm_compute; reflexivity]]|]. split; [reflexivity|].
  split; [vm_compute; reflexivity|]. split; [vm_compute; reflexivity|]. split; [vm_compute; reflexivity|].
  destruct M as (mw & M & D). intros past' l' H Hx.
  destruct (C11_configuration demo_env past' l' d_u spl_token_id _ mw H (or_introl eq_refl) Hx M) as (mw' & M' & D' & _).
  exists mw'. split; [exact M'|]. rewrite D', D. reflexivity.
Qed.
Print Assumptions C75_redenominated_refuted.
