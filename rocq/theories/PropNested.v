(** * PropNested.v — C57: wrapped tokens that are wrapped again, to any depth and in any way, stay backed by the original tokens. *)
From Verif Require Import Base Codec State Pda TokenProg Cpi Meta Processor Builders Demo Demo2 PdaProofs Spec SpecLemmas HistorySpec
  InvCons InvState InvTw InvHist HistProofs UnwrapLive PropHistory DemoHist PropRedeem PropReach2.

(** ** Specification *)
(** Who holds a wrapped token: some holders, and the wrapped tokens made from it by either token program with their holders in turn. *)
Inductive wrappings :=
| Nobody
| Held (holders : list pubkey) (by_spl by_t22 : wrappings).
(** What all of them hold together, of mint [w] (of program [p]) and everything wrapped from it. *)
Fixpoint claims (e : env) (l : ledger) (p w : pubkey) (t : wrappings) : N :=
  match t with
  | Nobody => 0
  | Held holders s t => hold_together l p w holders + claims e l spl_token_id (wrapped_mint_of e w spl_token_id) s +
                        claims e l t22_id (wrapped_mint_of e w t22_id) t
  end.
(** Nobody is counted twice, and escrows are not holders: their tokens are claimed through the wrapped tokens. *)
Fixpoint separate (e : env) (p w : pubkey) (t : wrappings) : Prop :=
  match t with
  | Nobody => True
  | Held holders s t => NoDup holders /\ ~ In (escrow_of e w p spl_token_id) holders /\ ~ In (escrow_of e w p t22_id) holders /\
      separate e spl_token_id (wrapped_mint_of e w spl_token_id) s /\ separate e t22_id (wrapped_mint_of e w t22_id) t
  end.
(** The mint obtained by wrapping [u] with the programs of the list, one after the other. *)
Fixpoint tower (e : env) (u : pubkey) (programs : list pubkey) : pubkey :=
  match programs with [] => u | p :: r => tower e (wrapped_mint_of e u p) r end.

(** ** Proofs *)
Lemma held_room e0 past l q w ks : history e0 past l -> spl_or_t22 q -> is_tw_pda w = true -> NoDup ks -> hold_together l q w ks <= room q w l w.
Proof.
  intros H T P ND. pose proof (history_inv _ _ _ H) as I.
  assert (Nw : is_native_mint q w = false). { unfold is_native_mint. apply pk_eqb_neq. intro X. rewrite X in P. destruct (pk_eqb q spl_token_id); discriminate P. }
  pose proof (inv_cons _ _ I q _ T Nw ks ND) as K. pose proof (hold_together_val l q w ks) as V. lia.
Qed.
Lemma room_supply q w l : room q w l w <= supply l w.
Proof. unfold room, supply. destruct (pk_eqb (a_owner (l w)) q); [|lia]. unfold data_cap. destruct (a_data (l w)); try lia. rewrite pk_eqb_refl. lia. Qed.
Lemma room_other q w l : a_owner (l w) <> q -> room q w l w = 0.
Proof. intro H. unfold room. rewrite (proj2 (pk_eqb_neq _ _) H). reflexivity. Qed.
Lemma escrowed_holds e l u utp wtp : escrowed e l u utp wtp <= holds l utp u (escrow_of e u utp wtp).
Proof.
  unfold escrowed, holds. cbv zeta. generalize (escrow_of e u utp wtp). generalize (authority_of e (wrapped_mint_of e u wtp)). intros a k.
  destruct (a_data (l k)); try lia. destruct (pk_eqb (a_owner (l k)) utp && pk_eqb (t_mint t) u); cbn [andb]; [|lia]. destruct (pk_eqb (t_owner t) a); lia.
Qed.
Lemma holds_one l p w k : holds l p w k = hold_together l p w [k].
Proof. unfold hold_together. cbn [fold_right]. lia. Qed.
(** A wrapped mint never has a permanent delegate. *)
Lemma wrapped_no_pd e0 past l u wtp : history e0 past l -> spl_or_t22 wtp -> ever (no_permanent_delegate (wrapped_mint_of e0 u wtp)) past l.
Proof.
  intros H T x Hx m M.
  assert (R : reachable e0 x). { destruct Hx as [<-|Hx]; [exists past; exact H|exact (past_reachable _ _ _ H x Hx)]. }
  destruct (together_l e0 x u wtp R T) as [[[_ U] _]|(m' & M' & _)].
  { exfalso. destruct M as [O _]. rewrite U in O. discriminate O. }
  assert (W : wtp = t22_id). { destruct M as [O _]. destruct M' as [O' _]. rewrite O in O'. symmetry. exact O'. }
  subst wtp. destruct R as [past' R]. destruct (config_l e0 past' x u t22_id x m R T (or_introl eq_refl) M) as (m2 & M2 & _ & _ & _ & Eo & Pr).
  rewrite Eo in Pr. clear M2 Eo m2. destruct Pr as [[X _]|[_ Pr]]; [discriminate X|]. unfold other_extensions in Pr. unfold ext_permanent_delegate.
  assert (F : forall d, ~ In (MxPermanentDelegate d) (m_exts m)).
  { intros d Hd. assert (Q : In (MxPermanentDelegate d) (filter (fun x => negb (mint_ext_kind x =? 19)) (m_exts m))) by (apply filter_In; split; [exact Hd|reflexivity]).
    rewrite Pr in Q. destruct Q as [Q|[Q|[]]]; discriminate Q. }
  clear - F. induction (m_exts m) as [|y r IH]; [reflexivity|]. cbn [find_map].
  destruct y; try (exfalso; refine (F _ _); left; reflexivity); apply IH; intros d' Hd'; apply (F d'); right; exact Hd'.
Qed.
(** Tokens of mint [w] wrapped by [q] sit in [w]'s escrow for [q]. *)
Lemma level e0 past l u wtp q w : history e0 past l -> spl_or_t22 wtp -> spl_or_t22 q -> w = wrapped_mint_of e0 u wtp ->
  supply l (wrapped_mint_of e0 w q) <= holds l wtp w (escrow_of e0 w wtp q).
Proof.
  intros H T Q E. assert (P : is_tw_pda w = true) by (rewrite E; apply is_tw_pda_wrapped).
  assert (NP : ever (no_permanent_delegate w) past l) by (rewrite E; apply wrapped_no_pd; [exact H|exact T]).
  assert (O : forall p, spl_or_t22 p -> p <> wtp -> escrowed e0 l w p q = 0).
  { intros p Tp Np. pose proof (escrowed_holds e0 l w p q) as A. rewrite holds_one in A.
    assert (ND : NoDup [escrow_of e0 w p q]) by (repeat constructor; intros []).
    pose proof (held_room e0 past l p w _ H Tp P ND) as B. rewrite room_other in B; [lia|].
    assert (R : reachable e0 l) by (exists past; exact H). rewrite E. intro X. apply Np.
    destruct (together_l e0 l u wtp R T) as [[[_ U] _]|(m & [M _] & _)]; [rewrite X in U; destruct Tp as [-> | ->]; discriminate U|].
    rewrite X in M. exact M. }
  pose proof (history_backing e0 past l w q H Q NP) as B. pose proof (escrowed_holds e0 l w wtp q) as A. clear E.
  destruct T as [-> | ->].
  - rewrite (O t22_id (or_intror eq_refl)) in B by discriminate. lia.
  - rewrite (O spl_token_id (or_introl eq_refl)) in B by discriminate. lia.
Qed.
Lemma escrows_differ e w p : escrow_of e w p spl_token_id <> escrow_of e w p t22_id.
Proof. intro X. apply escrow_of_inj in X. destruct X as (_ & _ & X). discriminate X. Qed.
Lemma claims_supply e0 past l t : history e0 past l -> forall u wtp w, spl_or_t22 wtp -> w = wrapped_mint_of e0 u wtp -> separate e0 wtp w t ->
  claims e0 l wtp w t <= supply l w.
Proof.
  intro H. induction t as [|hs s IHs t IHt]; intros u wtp w T E S; [cbn [claims]; apply N.le_0_l|]. cbn [claims separate] in *.
  destruct S as (ND & N1 & N2 & Ss & St).
  pose proof (IHs w spl_token_id _ (or_introl eq_refl) eq_refl Ss) as A. pose proof (IHt w t22_id _ (or_intror eq_refl) eq_refl St) as B.
  pose proof (level e0 past l u wtp spl_token_id w H T (or_introl eq_refl) E) as C. pose proof (level e0 past l u wtp t22_id w H T (or_intror eq_refl) E) as D.
  assert (P : is_tw_pda w = true) by (rewrite E; apply is_tw_pda_wrapped).
  assert (ND' : NoDup (escrow_of e0 w wtp spl_token_id :: escrow_of e0 w wtp t22_id :: hs)).
  { constructor; [intros [X|X]; [exact (escrows_differ _ _ _ (eq_sym X))|exact (N1 X)]|]. constructor; [exact N2|exact ND]. }
  pose proof (held_room e0 past l wtp w _ H T P ND') as K. pose proof (room_supply wtp w l) as R.
  change (hold_together l wtp w (escrow_of e0 w wtp spl_token_id :: escrow_of e0 w wtp t22_id :: hs)) with
    (holds l wtp w (escrow_of e0 w wtp spl_token_id) + (holds l wtp w (escrow_of e0 w wtp t22_id) + hold_together l wtp w hs)) in K.
  clear - A B C D K R. lia.
Qed.

(** All holders of a wrapped token, of the tokens wrapped from it, of those wrapped from these, and so on, together hold no more than
    the escrow of the original mint. *)
Theorem C57_nested : forall e0 past l u utp wtp t,
  history e0 past l -> ever (no_permanent_delegate u) past l -> spl_or_t22 wtp -> spl_or_t22 utp -> a_owner (l u) = utp ->
  separate e0 wtp (wrapped_mint_of e0 u wtp) t ->
  claims e0 l wtp (wrapped_mint_of e0 u wtp) t <= escrowed e0 l u utp wtp.
Proof.
  intros e0 past l u utp wtp t H NP Tw Tu Ou S. destruct (backed_l e0 past l u utp wtp H Tw Tu Ou NP) as [B _].
  pose proof (claims_supply e0 past l t H u wtp _ Tw eq_refl S) as C. clear - B C. lia.
Qed.
Print Assumptions C57_nested.

(** In particular the supply at any height is backed by the original mint's escrow. *)
Lemma tower_supply e0 past l ps : history e0 past l -> forall u wtp, spl_or_t22 wtp -> (forall p, In p ps -> spl_or_t22 p) ->
  supply l (tower e0 (wrapped_mint_of e0 u wtp) ps) <= supply l (wrapped_mint_of e0 u wtp).
Proof.
  intro H. induction ps as [|p r IH]; intros u wtp T A; cbn [tower]; [apply N.le_refl|].
  assert (Tp : spl_or_t22 p) by (apply A; left; reflexivity).
  pose proof (IH (wrapped_mint_of e0 u wtp) p Tp (fun q Hq => A q (or_intror Hq))) as X.
  pose proof (level e0 past l u wtp p _ H T Tp eq_refl) as C. rewrite holds_one in C.
  assert (P : is_tw_pda (wrapped_mint_of e0 u wtp) = true) by apply is_tw_pda_wrapped.
  assert (ND : NoDup [escrow_of e0 (wrapped_mint_of e0 u wtp) wtp p]) by (repeat constructor; intros []).
  pose proof (held_room e0 past l wtp _ _ H T P ND) as K. pose proof (room_supply wtp (wrapped_mint_of e0 u wtp) l) as R. clear - X C K R. lia.
Qed.
Theorem C57_tower : forall e0 past l u utp wtp programs,
  history e0 past l -> ever (no_permanent_delegate u) past l -> spl_or_t22 wtp -> spl_or_t22 utp -> a_owner (l u) = utp ->
  (forall p, In p programs -> spl_or_t22 p) ->
  supply l (tower e0 (wrapped_mint_of e0 u wtp) programs) <= escrowed e0 l u utp wtp.
Proof.
  intros e0 past l u utp wtp ps H NP Tw Tu Ou A. destruct (backed_l e0 past l u utp wtp H Tw Tu Ou NP) as [B _].
  pose proof (tower_supply e0 past l ps H u wtp Tw A) as C. clear - B C. lia.
Qed.
Print Assumptions C57_tower.

(** ** Redeeming at every level.  A wrapped mint has no permanent delegate, no close authority, no transfer hook, no fee and cannot be
    paused or made non-transferable; only its freeze authority can stop its tokens from leaving the escrow of the next level. *)
Lemma wrapped_kinds e0 past l u wtp x m p : history e0 past l -> spl_or_t22 wtp -> In x (l :: past) -> mint_account x (wrapped_mint_of e0 u wtp) p m -> spl_or_t22 p ->
  p = wtp /\ forall y, In y (m_exts m) -> mint_ext_kind y = 19 \/ y = MxConfidentialTransferMint None true None \/ exists a b, y = MxMetadataPointer a b.
Proof.
  intros H T Hx M Tp.
  assert (R : reachable e0 x). { destruct Hx as [<-|Hx]; [exists past; exact H|exact (past_reachable _ _ _ H x Hx)]. }
  destruct (together_l e0 x u wtp R T) as [[[_ U] _]|(m' & M' & _)].
  { exfalso. destruct M as [O _]. rewrite U in O. destruct Tp as [-> | ->]; discriminate O. }
  assert (W : p = wtp). { destruct M as [O _]. destruct M' as [O' _]. rewrite O in O'. exact O'. }
  split; [exact W|]. rewrite W in M. clear Tp W p. destruct R as [past' R]. destruct (config_l e0 past' x u wtp x m R T (or_introl eq_refl) M) as (m2 & _ & _ & _ & _ & Eo & Pr).
  rewrite Eo in Pr. intros y Hy. destruct (mint_ext_kind y =? 19) eqn:K; [left; apply N.eqb_eq; exact K|right].
  assert (Q : In y (other_extensions m)) by (apply filter_In; split; [exact Hy|rewrite K; reflexivity]).
  destruct Pr as [[_ Pr]|[_ Pr]]; rewrite Pr in Q; [destruct Q|]. destruct Q as [<-|[<-|[]]]; [left; reflexivity|right; eexists; eexists; reflexivity].
Qed.
Definition plain_kinds (xs : list mint_ext) : Prop :=
  forall y, In y xs -> mint_ext_kind y = 19 \/ y = MxConfidentialTransferMint None true None \/ exists a b, y = MxMetadataPointer a b.
Lemma plain_find {A} (f : mint_ext -> option A) xs : plain_kinds xs -> (forall y, mint_ext_kind y = 19 -> f y = None) ->
  f (MxConfidentialTransferMint None true None) = None -> (forall a b, f (MxMetadataPointer a b) = None) -> find_map f xs = None.
Proof.
  intros P F1 F2 F3. induction xs as [|y r IH]; [reflexivity|]. cbn [find_map].
  assert (Z : f y = None). { destruct (P y (or_introl eq_refl)) as [K|[-> |(a & b & ->)]]; [exact (F1 y K)|exact F2|exact (F3 a b)]. }
  rewrite Z. apply IH. intros z Hz. apply P. right. exact Hz.
Qed.
Lemma plain_facts m : plain_kinds (m_exts m) ->
  ext_close_authority m = None /\ ext_hook m = None /\ ext_paused m = false /\ ext_fee m = None /\ ~ In MxNonTransferable (m_exts m).
Proof.
  intro P.
  split; [|split; [|split; [|split]]].
  - unfold ext_close_authority. rewrite (plain_find _ _ P); [reflexivity| |reflexivity|reflexivity]. intros y K. destruct y; try discriminate K; reflexivity.
  - unfold ext_hook. rewrite (plain_find _ _ P); [reflexivity| |reflexivity|reflexivity]. intros y K. destruct y; try discriminate K; reflexivity.
  - unfold ext_paused. rewrite (plain_find _ _ P); [reflexivity| |reflexivity|reflexivity]. intros y K. destruct y; try discriminate K; reflexivity.
  - unfold ext_fee. apply (plain_find _ _ P); [|reflexivity|reflexivity]. intros y K. destruct y; try discriminate K; reflexivity.
  - intro X. destruct (P _ X) as [K|[K|(a & b & K)]]; discriminate K.
Qed.
Lemma nested_aux e0 e past l u p wtp accounts more signers n recipient source owner ts tr u1 w a esc :
  history e0 past l -> same_curve e0 e -> spl_or_t22 p -> spl_or_t22 wtp ->
  u1 = wrapped_mint_of e u p -> w = wrapped_mint_of e u1 wtp -> a = authority_of e w -> esc = escrow_of e u1 p wtp ->
  derivable e (wrapped_mint_seeds u1 wtp) tw_id -> derivable e (wrapped_mint_authority_seeds w) tw_id -> derivable e (ata_seeds a u1 p) ata_id ->
  map i_key accounts = [esc; recipient; a; u1; wtp; p; source; w; owner] ++ more ->
  writable accounts esc -> writable accounts recipient -> writable accounts source -> writable accounts w ->
  e_multisig e l owner (skipn 9 accounts) = Ok signers -> incl signers more -> owner_acts accounts l wtp owner signers ->
  appends_signers e accounts ->
  holder l wtp w source owner ts -> 0 < n -> n <= t_amount ts ->
  token_account l recipient p tr -> t_mint tr = u1 -> t_state tr = Initialized -> (memo_required tr = true -> e_memo e = true) -> recipient <> esc ->
  (forall t, a_data (l esc) = DTok t -> t_state t = Initialized) ->
  exists l', succeeds e accounts (Unwrap n) l l'.
Proof.
  intros H C Tp Tw E1 Ew Ea Ee D1 D2 D3 K W1 W2 W3 W4 Ms In Ac Ex Ho P1 P2 Rt Rm Rs Rmemo Ne Fr.
  assert (E10 : u1 = wrapped_mint_of e0 u p) by (rewrite E1; symmetry; apply wrapped_mint_of_curve; exact C).
  assert (Ew0 : w = wrapped_mint_of e0 u1 wtp) by (rewrite Ew; symmetry; apply wrapped_mint_of_curve; exact C).
  assert (P1' : is_tw_pda u1 = true) by (rewrite E1; apply is_tw_pda_wrapped).
  assert (Pw : is_tw_pda w = true) by (rewrite Ew; apply is_tw_pda_wrapped).
  assert (NP : ever (no_permanent_delegate u1) past l) by (rewrite E10; apply wrapped_no_pd; [exact H|exact Tp]).
  assert (Rl : reachable e0 l) by (exists past; exact H).
  assert (Mu : exists mu, mint_account l u1 p mu).
  { pose proof (together_l e0 l u p Rl Tp) as X. cbv zeta in X. rewrite <- E10 in X. destruct X as [[[_ U] _]|(m & M & _)]; [exfalso|exists m; exact M].
    pose proof (level e0 past l u p wtp u1 H Tp Tw E10) as L. rewrite <- Ew0 in L. rewrite holds_one in L.
    assert (ND : NoDup [escrow_of e0 u1 p wtp]) by (repeat constructor; intros []).
    pose proof (held_room e0 past l p u1 _ H Tp P1' ND) as B. rewrite room_other in B by (rewrite U; destruct Tp as [-> | ->]; discriminate).
    assert (NDs : NoDup [source]) by (repeat constructor; intros []).
    pose proof (held_room e0 past l wtp w _ H Tw Pw NDs) as B2. pose proof (room_supply wtp w l) as R2. rewrite <- holds_one in B2.
    destruct Ho as ((So & Sd & _) & Sm & _). unfold holds in B2. rewrite Sd, So, Sm, !pk_eqb_refl in B2. cbn [andb] in B2. clear - L B B2 R2 P1 P2. lia. }
  destruct Mu as [mu Mu].
  assert (Pl : forall x m, List.In x (l :: past) -> mint_account x u1 p m -> plain_kinds (m_exts m)).
  { intros x m Hx M. rewrite E10 in M. exact (proj2 (wrapped_kinds e0 past l u p x m p H Tp Hx M Tp)). }
  destruct (plain_facts mu (Pl l mu (or_introl eq_refl) Mu)) as (F1 & F2 & F3 & F4 & F5).
  assert (Tr : transferable l p u1 mu) by (split; [exact Mu|split; [exact F3|exact F2]]).
  assert (Ca : can_receive e l p u1 recipient mu tr).
  { split; [exact Rt|]. split; [exact Rm|]. split; [exact Rs|]. split; [exact Rmemo|]. intro X. exfalso. exact (X F4). }
  assert (Na : native_mint u1 -> lamports l recipient + lamports l esc < two64).
  { intros [X|X]; rewrite X in P1'; discriminate P1'. }
  pose proof Tp as Tp'. destruct Tp' as [-> | ->].
  - assert (Op : open_account l esc).
    { intros t Dt. split; [exact (Fr t Dt)|]. rewrite Ee in Dt. rewrite <- (escrow_of_curve e0 e u1 spl_token_id wtp C) in Dt.
      pose proof (PropEscrow.C37_genuine e0 l u1 spl_token_id wtp Rl (or_introl eq_refl)) as G. cbv zeta in G.
      destruct G as [G|(t' & Go & Gd & _)]; [destruct G as [G _]; rewrite Dt in G; discriminate G|].
      pose proof (inv_tok e0 l (escrow_of e0 u1 spl_token_id wtp) t (history_inv _ _ _ H)) as I. rewrite Go in I. specialize (I (or_introl eq_refl) Dt). destruct I as (_ & I & _). rewrite (I eq_refl). intros []. }
    exact (redeem_aux2 e0 e past l u1 spl_token_id wtp accounts more signers n recipient source owner mu ts tr w a esc H NP C Tw Tp Ew Ea Ee D1 D2 D3 K Ms In Ex W1 W2 W3 W4 Ac Ho P1 P2 Tr Ca Ne Op Na).
  - assert (Uc : ever (uncloseable u1) past l) by (intros x Hx m M; exact (proj1 (plain_facts m (Pl x m Hx M)))).
    exact (redeem_uncloseable e0 e past l u1 wtp accounts more signers n recipient source owner mu ts tr w a esc H NP Uc C Tw Ew Ea Ee D1 D2 D3 K W1 W2 W3 W4 Ms In Ac Ex Ho P1 P2 Tr F5 Ca Ne Fr Na).
Qed.
Theorem C57_redeemable : forall e0 e past l u p wtp accounts more signers n recipient source owner ts tr,
  history e0 past l -> same_curve e0 e -> spl_or_t22 p -> spl_or_t22 wtp ->
  let u1 := wrapped_mint_of e u p in let w := wrapped_mint_of e u1 wtp in let a := authority_of e w in let esc := escrow_of e u1 p wtp in
  derivable e (wrapped_mint_seeds u1 wtp) tw_id -> derivable e (wrapped_mint_authority_seeds w) tw_id -> derivable e (ata_seeds a u1 p) ata_id ->
  map i_key accounts = [esc; recipient; a; u1; wtp; p; source; w; owner] ++ more ->
  writable accounts esc -> writable accounts recipient -> writable accounts source -> writable accounts w ->
  e_multisig e l owner (skipn 9 accounts) = Ok signers -> incl signers more -> owner_acts accounts l wtp owner signers ->
  appends_signers e accounts ->
  holder l wtp w source owner ts -> 0 < n -> n <= t_amount ts ->
  token_account l recipient p tr -> t_mint tr = u1 -> t_state tr = Initialized -> (memo_required tr = true -> e_memo e = true) -> recipient <> esc ->
  (forall t, a_data (l esc) = DTok t -> t_state t = Initialized) ->
  exists l', succeeds e accounts (Unwrap n) l l'.
Proof.
  intros e0 e past l u p wtp accounts more signers n recipient source owner ts tr H C Tp Tw u1 w a esc.
  exact (nested_aux e0 e past l u p wtp accounts more signers n recipient source owner ts tr u1 w a esc H C Tp Tw eq_refl eq_refl eq_refl eq_refl).
Qed.
Print Assumptions C57_redeemable.

(** ** The hypotheses are met: Alice wraps 60 of her 150 wrapped tokens once more, into an SPL Token. *)
Definition n_w2 : pubkey := wrapped_mint_of demo_env (d_w t22_id) spl_token_id.
Definition n_a2 : pubkey := authority_of demo_env n_w2.
Definition n_esc2 : pubkey := escrow_of demo_env (d_w t22_id) t22_id spl_token_id.
Definition n_alice_w2 : pubkey := PkRaw 177.
Definition nested_story : list cmd :=
  story ++
  [ CFund n_w2 5000; CFund (backpointer_of demo_env n_w2) 5000; CFund n_esc2 5000;
    CAta t22_id n_a2 (d_w t22_id);
    CTw (build_create_mint tw_id n_w2 (backpointer_of demo_env n_w2) (d_w t22_id) spl_token_id false);
    CAlloc n_alice_w2 165 5000 spl_token_id;
    CTok spl_token_id [meta_w n_alice_w2 false; meta_r n_w2 false] (TiInitializeAccount d_alice false);
    CTw (build_wrap tw_id n_alice_w2 n_w2 n_a2 t22_id spl_token_id d_alice_w (d_w t22_id) n_esc2 d_alice [] 60) ].
Definition nested_holders : wrappings := Held [d_alice_w; d_bob_w] (Held [n_alice_w2] Nobody Nobody) Nobody.
Lemma nested_no_pd : ever (no_permanent_delegate d_u) (past_of nested_story) (now_of nested_story).
Proof.
  assert (H : forallb (fun x => match a_data (x d_u) with DMint m => match ext_permanent_delegate m with None => true | Some _ => false end | _ => true end)
                (now_of nested_story :: past_of nested_story) = true) by (vm_compute; reflexivity).
  rewrite forallb_forall in H. intros x Hx m (_ & D & _). specialize (H x Hx). rewrite D in H. destruct (ext_permanent_delegate m); [discriminate|reflexivity].
Qed.
Example C57_nonvacuous : history demo_env (past_of nested_story) (now_of nested_story) /\
  ever (no_permanent_delegate d_u) (past_of nested_story) (now_of nested_story) /\ a_owner (now_of nested_story d_u) = spl_token_id /\
  separate demo_env t22_id (d_w t22_id) nested_holders /\
  claims demo_env (now_of nested_story) t22_id (d_w t22_id) nested_holders = 200 /\
  escrowed demo_env (now_of nested_story) d_u spl_token_id t22_id = 200 /\
  supply (now_of nested_story) (tower demo_env (d_w t22_id) [spl_token_id]) = 60.
Proof.
  split; [apply played_history; vm_compute; reflexivity|]. split; [exact nested_no_pd|]. split; [vm_compute; reflexivity|].
  split; [|split; [vm_compute; reflexivity|split; vm_compute; reflexivity]].
  cbn [separate nested_holders].
  split; [constructor; [intros [X|[]]; discriminate X|constructor; [intros []|constructor]]|].
  split; [intros [X|[X|[]]]; vm_compute in X; discriminate X|]. split; [intros [X|[X|[]]]; vm_compute in X; discriminate X|].
  split; [|exact I]. split; [constructor; [intros []|constructor]|].
  split; [intros [X|[]]; vm_compute in X; discriminate X|]. split; [intros [X|[]]; vm_compute in X; discriminate X|]. split; exact I.
Qed.
(** Alice can take them out again. *)
Definition alice_back : tw_instruction := build_unwrap tw_id n_esc2 d_alice_w n_a2 (d_w t22_id) spl_token_id t22_id n_alice_w2 n_w2 d_alice [] 60.
Example C57_redeemable_nonvacuous : exists l', succeeds demo_env (tx_metas alice_back) (Unwrap 60) (now_of nested_story) l'.
Proof.
  assert (S : exists ts, a_data (now_of nested_story n_alice_w2) = DTok ts) by (eexists; vm_compute; reflexivity). destruct S as [ts Hs].
  assert (R : exists tr, a_data (now_of nested_story d_alice_w) = DTok tr) by (eexists; vm_compute; reflexivity). destruct R as [tr Hr].
  assert (E : exists te, a_data (now_of nested_story n_esc2) = DTok te) by (eexists; vm_compute; reflexivity). destruct E as [te He].
  apply (C57_redeemable demo_env demo_env (past_of nested_story) (now_of nested_story) d_u t22_id spl_token_id (tx_metas alice_back) [] [] 60 d_alice_w n_alice_w2 d_alice ts tr).
  - apply played_history. vm_compute. reflexivity.
  - apply same_curve_refl.
  - right; reflexivity.
  - left; reflexivity.
  - apply demo_derivable.
  - apply demo_derivable.
  - apply demo_derivable.
  - vm_compute. reflexivity.
  - apply in_writable. vm_compute. reflexivity.
  - apply in_writable. vm_compute. reflexivity.
  - apply in_writable. vm_compute. reflexivity.
  - apply in_writable. vm_compute. reflexivity.
  - reflexivity.
  - intros x [].
  - left. split; [reflexivity|]. split; [|intros m X; exfalso; vm_compute in X; discriminate X].
    exists (meta_r d_alice true). split; [do 8 right; left; reflexivity|split; reflexivity].
  - intro l1. exists []. split; [reflexivity|intros k []].
  - revert Hs. vm_compute. intro X. inversion X; subst ts. repeat split; auto; discriminate.
  - lia.
  - revert Hs. vm_compute. intro X. inversion X; subst ts. discriminate.
  - revert Hr. vm_compute. intro X. inversion X; subst tr. repeat split; auto; discriminate.
  - revert Hr. vm_compute. intro X. inversion X; subst tr. reflexivity.
  - revert Hr. vm_compute. intro X. inversion X; subst tr. reflexivity.
  - revert Hr. vm_compute. intro X. inversion X; subst tr. discriminate.
  - vm_compute. discriminate.
  - intros t X. change (a_data (now_of nested_story n_esc2) = DTok t) in X. rewrite He in X. inversion X; subst t. clear X. revert He. vm_compute. intro X. inversion X; subst te. reflexivity.
Qed.
