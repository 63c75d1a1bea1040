(** * PropSurplus.v — C73: tokens in an escrow beyond the supply of wrapped tokens (sent there directly, left over from burnt wrapped
    tokens, or unwrapped into the escrow itself) are out of everybody's reach for good. *)
From Verif Require Import Base Codec State Pda TokenProg Cpi Ata Meta Processor Builders Demo Demo2 PdaProofs TokProofs ProcProofs Spec SpecLemmas HistorySpec
  CodecProofs InvState InvTw InvHist EscProofs HistProofs DemoHist PropWrap PropHistory PropClose PropEscrow.

(** What backs the wrapped tokens: the tokens in the genuine escrows of the pair (of both token programs: a mint's address can change
    hands between them while nobody holds tokens). *)
Definition backing (e0 : env) (l : ledger) (u wtp : pubkey) : N := escrowed e0 l u spl_token_id wtp + escrowed e0 l u t22_id wtp.

Lemma backing_step e0 past a l l' u wtp : history e0 past l -> step e0 a l l' -> spl_or_t22 wtp -> no_permanent_delegate u l ->
  backing e0 l u wtp + supply l' (wrapped_mint_of e0 u wtp) <= backing e0 l' u wtp + supply l (wrapped_mint_of e0 u wtp).
Proof.
  intros H S T NP. destruct (step_inv _ _ _ _ (history_inv _ _ _ H) S) as (_ & _ & Q & _). unfold backing.
  assert (T1 : token_program spl_token_id) by (left; reflexivity). assert (T2 : token_program t22_id) by (right; reflexivity).
  destruct (Q u wtp T NP) as [[Q1 Q2]|[(utp & n & n' & _ & _ & Tu & Q1 & Q2 & Q3)|(utp & n & _ & Tu & Q1 & Q2 & Q3)]].
  - pose proof (Q2 _ T1). pose proof (Q2 _ T2). lia.
  - pose proof (Q3 _ T1). pose proof (Q3 _ T2). destruct Tu as [-> | ->]; lia.
  - destruct Tu as [-> | ->]; [assert (X : t22_id <> spl_token_id) by discriminate; specialize (Q3 _ T2 X)|assert (X : spl_token_id <> t22_id) by discriminate; specialize (Q3 _ T1 X)]; lia.
Qed.
(** C73: whatever is done by whomever, the surplus — tokens in escrow less wrapped tokens — never shrinks. *)
Theorem C73_grows : forall e0 past l u wtp x,
  history e0 past l -> ever (no_permanent_delegate u) past l -> spl_or_t22 wtp -> In x (l :: past) ->
  let w := wrapped_mint_of e0 u wtp in
  supply x w <= backing e0 x u wtp /\ backing e0 x u wtp - supply x w <= backing e0 l u wtp - supply l w.
Proof.
  intros e0 past l u wtp x H. induction H as [l G|past l a l' H IH S]; intros EV Tw Hx w.
  - destruct Hx as [<-|[]]. split; [|lia]. exact (history_backing e0 [] l u wtp (h_genesis _ _ G) Tw EV).
  - assert (B' : supply l' w <= backing e0 l' u wtp) by (exact (history_backing e0 (l :: past) l' u wtp (h_step _ _ _ _ _ H S) Tw EV)).
    destruct Hx as [<-|Hx]; [split; [exact B'|lia]|].
    assert (EV0 : ever (no_permanent_delegate u) past l) by (intros y Hy; apply EV; right; exact Hy).
    destruct (IH EV0 Tw Hx) as [A B]. fold w in A, B. split; [exact A|].
    pose proof (backing_step e0 past a l l' u wtp H S Tw (EV0 l (or_introl eq_refl))) as C. fold w in C. 
    pose proof (history_backing e0 past l u wtp H Tw EV0) as D. fold w in D. unfold backing in *. lia.
Qed.
Print Assumptions C73_grows.

Lemma escrow_program e0 l u q wtp : Inv e0 l -> token_program q -> 0 < escrowed e0 l u q wtp -> a_owner (l u) = q.
Proof.
  intros I Tq G. destruct (escrowed_inv _ _ _ _ _ G) as (t & D & Oe & M & _ & A). rewrite A in G.
  destruct (held_mint e0 l q _ t I Tq Oe D G) as [Hn|(m & Om & _)]; [|rewrite <- M; exact Om]. rewrite M in Hn.
  unfold is_native_mint in Hn. apply pk_eqb_eq in Hn. destruct Tq as [-> | ->]; cbn in Hn.
  - destruct (inv_sol _ _ I) as [Os _]. clear - Os Hn. rewrite Hn. exact Os.
  - assert (M' : t_mint t = native_mint_2022_id) by (clear - M Hn; congruence). pose proof (inv_native _ _ I _ _ Oe D M') as Os. clear - Os Hn. rewrite Hn. exact Os.
Qed.
(** C73: once there were [s] tokens more in escrow than wrapped tokens, there always are; they all lie in one escrow, that of the
    token program the mint belongs to, and the mint cannot be closed.  The account is never closed either. *)
Theorem C73_lost : forall e0 past l u wtp x s,
  history e0 past l -> ever (no_permanent_delegate u) past l -> spl_or_t22 wtp -> In x (l :: past) ->
  let w := wrapped_mint_of e0 u wtp in
  0 < s -> supply x w + s <= backing e0 x u wtp ->
  exists utp t, let esc := escrow_of e0 u utp wtp in
    spl_or_t22 utp /\ a_owner (l u) = utp /\ a_owner (l esc) = utp /\ a_data (l esc) = DTok t /\ t_mint t = u /\ supply l w + s <= t_amount t.
Proof.
  intros e0 past l u wtp x s H EV Tw Hx w Pos Sx. destruct (C73_grows e0 past l u wtp x H EV Tw Hx) as [_ B]. fold w in B.
  pose proof (history_backing e0 past l u wtp H Tw EV) as D. fold w in D. pose proof (history_inv _ _ _ H) as I.
  assert (L : supply l w + s <= backing e0 l u wtp) by (unfold backing in *; lia).
  assert (T1 : token_program spl_token_id) by (left; reflexivity). assert (T2 : token_program t22_id) by (right; reflexivity).
  assert (G : exists utp, spl_or_t22 utp /\ a_owner (l u) = utp /\ supply l w + s <= escrowed e0 l u utp wtp).
  { unfold backing in L. destruct (N.eq_0_gt_0_cases (escrowed e0 l u spl_token_id wtp)) as [Z|Z].
    - exists t22_id. split; [exact T2|]. assert (G : 0 < escrowed e0 l u t22_id wtp) by lia. split; [exact (escrow_program _ _ _ _ _ I T2 G)|lia].
    - exists spl_token_id. split; [exact T1|]. pose proof (escrow_program _ _ _ _ _ I T1 Z) as O. split; [exact O|].
      assert (Ne : t22_id <> spl_token_id) by discriminate. rewrite (other_program_empty e0 l u spl_token_id t22_id wtp I T1 T2 O Ne) in L. lia. }
  destruct G as (utp & Tu & O & Le). assert (P : 0 < escrowed e0 l u utp wtp) by lia.
  destruct (escrowed_inv _ _ _ _ _ P) as (t & Dt & Oe & M & _ & A). exists utp, t. cbv zeta. rewrite A in Le.
  split; [exact Tu|]. split; [exact O|]. split; [exact Oe|]. split; [exact Dt|]. split; [exact M|exact Le].
Qed.
Print Assumptions C73_lost.
(** C73: in particular CloseStuckEscrow never works on such an escrow again. *)
Theorem C73_repair_blocked : forall e0 past l u wtp x s,
  history e0 past l -> ever (no_permanent_delegate u) past l -> spl_or_t22 wtp -> In x (l :: past) ->
  0 < s -> supply x (wrapped_mint_of e0 u wtp) + s <= backing e0 x u wtp ->
  forall e accounts d w a p l', keys_are accounts [escrow_of e0 u t22_id wtp; d; u; w; a; p] -> ~ succeeds e accounts CloseStuckEscrow l l'.
Proof.
  intros e0 past l u wtp x s H EV Tw Hx Pos Sx e accounts d w a p l' K S.
  destruct (C73_lost e0 past l u wtp x s H EV Tw Hx Pos Sx) as (utp & t & _ & Ou & _ & Dt & _ & Le).
  destruct (C22_close _ _ _ _ _ _ _ _ _ _ K S) as (_ & _ & (mu & te & [Om _] & (_ & De & _) & _ & Z & _) & _).
  rewrite Om in Ou. subst utp. rewrite Dt in De. injection De as <-. rewrite Z in Le. lia.
Qed.
Print Assumptions C73_repair_blocked.
(** C73: Unwrap accepts the escrow itself as recipient.  The wrapped tokens are burnt, the escrow keeps its tokens, and nobody will
    ever get them: in every later state the escrow holds that much more than is owed. *)
Theorem C73_into_escrow : forall e0 past x x' e accounts n u utp wtp s ta,
  history e0 past x -> ever (no_permanent_delegate u) past x -> spl_or_t22 wtp -> n < two64 ->
  let w := wrapped_mint_of e0 u wtp in let esc := escrow_of e0 u utp wtp in
  keys_are accounts [esc; esc; authority_of e0 w; u; wtp; utp; s; w; ta] ->
  step e0 (ATokenWrap e accounts (pack (Unwrap n))) x x' ->
  (balance x' s + n = balance x s /\ balance x' esc = balance x esc /\ supply x' w + n = supply x w) /\
  forall past' l, history e0 past' l -> ever (no_permanent_delegate u) past' l -> In x' (l :: past') -> supply l w + n <= backing e0 l u wtp.
Proof.
  intros e0 past x x' e accounts n u utp wtp s ta H EV Tw Ln w esc K St.
  assert (S : succeeds e accounts (Unwrap n) x x') by (inversion St; subst; assumption).
  destruct (C15_unwrap_to_escrow _ _ _ _ _ _ _ _ _ _ _ _ _ Ln K S) as (E & Sw & Bs).
  split; [split; [symmetry; exact Bs|split; [unfold balance; rewrite E; reflexivity|symmetry; exact Sw]]|].
  intros past' l H' EV' Hx'. destruct (C73_grows e0 past' l u wtp x' H' EV' Tw Hx') as [_ B].
  pose proof (history_backing e0 past x u wtp H Tw EV) as A. pose proof (history_backing e0 past' l u wtp H' Tw EV') as D.
  fold (backing e0 x u wtp) in A. fold (backing e0 l u wtp) in D. fold w in A, B, D.
  assert (X : backing e0 x u wtp <= backing e0 x' u wtp); [|lia].
  assert (T1 : token_program spl_token_id) by (left; reflexivity). assert (T2 : token_program t22_id) by (right; reflexivity).
  assert (Up : unpack (pack (Unwrap n)) = Ok (Unwrap n)) by (apply unpack_pack; exact Ln). unfold backing. clear S. revert St Up. generalize (pack (Unwrap n)) as input. intros input St Up. destruct (step_inv _ _ _ _ (history_inv _ _ _ H) St) as (_ & _ & Q & _).
  destruct (Q u wtp Tw (EV x (or_introl eq_refl))) as [[_ Q2]|[(utp' & m & m' & (e' & ac & inp & r' & s' & t' & Ea & Ei & _) & _)|(utp' & m & (e' & ac & inp & r' & s' & t' & Ea & Ei & K') & Tu & _ & Q2 & Q3)]].
  - pose proof (Q2 _ T1). pose proof (Q2 _ T2). lia.
  - injection Ea as <- <- <-. rewrite Up in Ei. discriminate Ei.
  - injection Ea as <- <- <-. destruct K as (more & K). destruct K' as (more' & K'). rewrite K in K'. apply (f_equal (hd system_id)) in K'. cbn [app hd] in K'. rename K' into K1.
    assert (Z : escrowed e0 x' u utp' wtp = escrowed e0 x u utp' wtp) by (unfold escrowed; cbv zeta; rewrite <- K1; fold esc; rewrite E; reflexivity).
    destruct Tu as [-> | ->]; [assert (Y : t22_id <> spl_token_id) by discriminate; specialize (Q3 _ T2 Y)|assert (Y : spl_token_id <> t22_id) by discriminate; specialize (Q3 _ T1 Y)]; lia.
Qed.
Print Assumptions C73_into_escrow.

(** ** The hypotheses are met *)
Lemma no_pd_b u past l :
  forallb (fun x => match a_data (x u) with DMint m => match ext_permanent_delegate m with None => true | Some _ => false end | _ => true end) (l :: past) = true ->
  ever (no_permanent_delegate u) past l.
Proof.
  intro Q. rewrite forallb_forall in Q. intros x Hx m (_ & D & _). specialize (Q x Hx). rewrite D in Q. destruct (ext_permanent_delegate m); [discriminate Q|reflexivity].
Qed.
(** Alice sends 30 tokens straight to the escrow: it holds 230 for 200 wrapped tokens, and 30 remain there in every future. *)
Definition gift_story : list cmd := story ++
  [ CTok spl_token_id [meta_w d_alice_u false; meta_r d_u false; meta_w (d_esc spl_token_id t22_id) false; meta_r d_alice true] (TiTransferChecked 30 6) ].
Example C73_example : history demo_env (past_of gift_story) (now_of gift_story) /\ ever (no_permanent_delegate d_u) (past_of gift_story) (now_of gift_story) /\
  supply (now_of gift_story) (d_w t22_id) = 200 /\ balance (now_of gift_story) (d_esc spl_token_id t22_id) = 230 /\
  forall past l, history demo_env past l -> ever (no_permanent_delegate d_u) past l -> In (now_of gift_story) (l :: past) ->
    supply l (d_w t22_id) + 30 <= backing demo_env l d_u t22_id.
Proof.
  split; [apply played_history; vm_compute; reflexivity|]. split; [apply no_pd_b; vm_compute; reflexivity|]. split; [vm_compute; reflexivity|]. split; [vm_compute; reflexivity|].
  intros past l H EV Hx. assert (Tw : spl_or_t22 t22_id) by (right; reflexivity).
  destruct (C73_grows demo_env past l d_u t22_id _ H EV Tw Hx) as [_ B].
  assert (S1 : backing demo_env (now_of gift_story) d_u t22_id - supply (now_of gift_story) (wrapped_mint_of demo_env d_u t22_id) = 30) by (vm_compute; reflexivity). rewrite S1 in B.
  pose proof (history_backing demo_env past l d_u t22_id H Tw EV) as D. fold (backing demo_env l d_u t22_id) in D. unfold d_w. clear - B D. lia.
Qed.
(** Alice unwraps 20 into the escrow. *)
Definition into_ix : tw_instruction := build_unwrap tw_id (d_esc spl_token_id t22_id) (d_esc spl_token_id t22_id) (d_a t22_id) d_u t22_id spl_token_id d_alice_w (d_w t22_id) d_alice [] 20.
Definition into_story : list cmd := story ++ [CTw into_ix].
Example C73_into_escrow_example : playable into_story = true /\ supply (now_of into_story) (d_w t22_id) = 180 /\ balance (now_of into_story) (d_esc spl_token_id t22_id) = 200 /\
  balance (now_of story) d_alice_w = 150 /\ balance (now_of into_story) d_alice_w = 130.
Proof. vm_compute. auto 6. Qed.

(** ** C73: a single token in the wrong place blocks the repair of a stuck escrow for good.  The trap of C38: a non-transferable mint
    was wrapped, closed and made anew as an ordinary one.  CloseStuckEscrow would put things right — until somebody sends one token
    to the stuck escrow. *)
Definition stray : list cmd := trap_setup ++
  [ CTok t22_id [meta_w d_alice_u false; meta_r d_u false; meta_w (d_esc t22_id spl_token_id) false; meta_r d_alice true] (TiTransferChecked 1 6) ].
Theorem C73_one_token_blocks_refuted : exists past l a l',
  history demo_env past l /\ step demo_env a l l' /\
  (exists e accounts l2, keys_are accounts [d_esc t22_id spl_token_id; d_alice; d_u; d_w spl_token_id; d_a spl_token_id; t22_id] /\ succeeds e accounts CloseStuckEscrow l l2) /\
  balance l (d_esc t22_id spl_token_id) = 0 /\ balance l' (d_esc t22_id spl_token_id) = 1 /\
  forall past' z, history demo_env past' z -> ever (no_permanent_delegate d_u) past' z -> In l' (z :: past') ->
    (forall e accounts d w a p z', keys_are accounts [d_esc t22_id spl_token_id; d; d_u; w; a; p] -> ~ succeeds e accounts CloseStuckEscrow z z') /\
    (forall e accounts n r a s w ta z', n < two64 -> keys_are accounts [d_esc t22_id spl_token_id; r; a; d_u; spl_token_id; t22_id; s; w; ta] -> ~ succeeds e accounts (Unwrap n) z z').
Proof.
  destruct (last_step trap_setup (CTok t22_id [meta_w d_alice_u false; meta_r d_u false; meta_w (d_esc t22_id spl_token_id) false; meta_r d_alice true] (TiTransferChecked 1 6))) as [_ Nx]; [vm_compute; reflexivity|].
  apply next_step in Nx. destruct Nx as [a St]. fold stray in St.
  exists (past_of trap_setup), (now_of trap_setup), a, (now_of stray).
  split; [apply played_history; vm_compute; reflexivity|]. split; [exact St|]. clear St a.
  split.
  { exists demo_env, (tx_metas (build_close_stuck_escrow tw_id (d_esc t22_id spl_token_id) d_alice d_u (d_w spl_token_id) (d_a spl_token_id))).
    assert (Q : match outcome demo_env (tx_metas (build_close_stuck_escrow tw_id (d_esc t22_id spl_token_id) d_alice d_u (d_w spl_token_id) (d_a spl_token_id))) CloseStuckEscrow (now_of trap_setup) with Ok _ => true | Err _ => false end = true) by (vm_compute; reflexivity).
    unfold succeeds. destruct (outcome demo_env _ CloseStuckEscrow (now_of trap_setup)) as [l2|x] in Q |- *; [|discriminate Q].
    exists l2. split; [exists []; reflexivity|reflexivity]. }
  split; [vm_compute; reflexivity|]. split; [vm_compute; reflexivity|].
  intros past' z H EV Hx. assert (Tw : spl_or_t22 spl_token_id) by (left; reflexivity). split.
  - intros e accounts d w a p z' K. apply (C73_repair_blocked demo_env past' z d_u spl_token_id (now_of stray) 1 H EV Tw Hx) with (d := d) (w := w) (a := a) (p := p); [reflexivity|vm_compute; discriminate|exact K].
  - assert (D : exists t, a_data (now_of stray (d_esc t22_id spl_token_id)) = DTok t /\ In XtNonTransferableAccount (map acct_ext_type_of (t_exts t)) /\ t_amount t = 1).
    { eexists. split; [vm_compute; reflexivity|]. split; [cbn; auto|reflexivity]. }
    destruct D as (t & D & NT & Am). assert (Pos : 0 < t_amount t) by (rewrite Am; reflexivity).
    destruct (C38_locked demo_env past' z d_u spl_token_id _ t H EV Tw Hx D NT Pos) as (t' & D' & NT' & _).
    intros e accounts n r a s w ta z' Ln K S. exact (C38_no_exit e accounts n z z' _ _ _ _ _ _ _ _ _ _ K D' NT' Ln S).
Qed.
Print Assumptions C73_one_token_blocks_refuted.
