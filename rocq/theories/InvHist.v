(** * InvHist.v — the invariant holds in every reachable state; what single steps and whole
    histories do to wrapped mints, escrows and pointers. *)
From Verif Require Import Base Codec State Pda TokenProg Cpi Meta Processor Tac PdaProofs TokProofs FrameProofs ProcProofs
  Spec SpecLemmas InvTok InvCons HistorySpec InvState InvTw.

Lemma sol_ok p : token_program p -> mint_ok p wrapped_sol_mint.
Proof. intros _. unfold mint_ok, wrapped_sol_mint, distinct_mint_exts, tight; cbn. repeat split; try discriminate; try constructor. Qed.
Lemma genesis_inv e0 l : genesis l -> Inv e0 l.
Proof.
  intros (O1 & D1 & N2 & NR & PD').
  assert (PD : forall k, is_tw_pda k = true -> unallocated l k) by (intros k Q; apply PD'; left; exact Q).
  assert (NT : forall k, k <> native_mint_id -> k <> native_mint_2022_id -> ~ token_program (a_owner (l k))).
  { intros k N1 N3 T. apply (NR k); [intros [Q|Q]; contradiction|]. apply token_ruled; exact T. }
  assert (SOL : forall k, token_program (a_owner (l k)) -> a_data (l k) = DMint wrapped_sol_mint).
  { intros k T. destruct (pk_dec k native_mint_id) as [->|A]; [exact D1|]. destruct (pk_dec k native_mint_2022_id) as [->|B].
    - destruct N2 as [[_ U]|[_ U]]; [|exact U]. exfalso. apply (token_not_system _ T). exact U.
    - exfalso. exact (NT k A B T). }
  constructor.
  - intro k. split; [|split].
    + intro T. rewrite (SOL k T). apply sol_ok. exact T.
    + intro P. left. exact (PD k P).
    + intros -> T. apply SOL. right. exact T.
  - intros u p T. pose proof (PD _ (is_tw_pda_wrapped e0 u p)) as A. pose proof (PD _ (is_tw_pda_backpointer e0 (wrapped_mint_of e0 u p))) as B.
    split; intros _; [exact B|exact A].
  - intros k t T D. assert (T' : token_program (a_owner (l k))) by (right; exact T). rewrite (SOL k T') in D. discriminate.
  - intros p v T N ks _. assert (sumf (val p v l) ks = 0) as ->; [|lia]. induction ks as [|k ks IH]; [reflexivity|]. cbn [sumf fold_right].
    fold (sumf (val p v l) ks). rewrite IH. unfold val. destruct (pk_eqb (a_owner (l k)) p) eqn:E; [|reflexivity]. apply pk_eqb_eq in E.
    rewrite <- E in T. rewrite (SOL k T). unfold data_val. destruct (pk_eqb k v); reflexivity.
  - split; [exact O1|exact D1].
Qed.

(** ** One step *)
Lemma quiet_curve e e' u wtp l l' : same_curve e e' -> quiet e u wtp l l' -> quiet e' u wtp l l'.
Proof.
  intros C [A B]. split; [rewrite <- (wrapped_mint_of_curve e e' u wtp C); exact A|].
  intros utp T. rewrite <- !(escrowed_curve e e' _ _ _ _ C). exact (B utp T).
Qed.
Lemma wraps_curve e e' u wtp utp n l l' : same_curve e e' -> wraps e u wtp utp n l l' -> wraps e' u wtp utp n l l'.
Proof.
  intros C (T & A & B & D). split; [exact T|]. split; [rewrite <- (wrapped_mint_of_curve e e' u wtp C); exact A|].
  split; [rewrite <- !(escrowed_curve e e' _ _ _ _ C); exact B|]. intros utp' T'. rewrite <- !(escrowed_curve e e' _ _ _ _ C). exact (D utp' T').
Qed.
Lemma unwraps_curve e e' u wtp utp n l l' : same_curve e e' -> unwraps e u wtp utp n l l' -> unwraps e' u wtp utp n l l'.
Proof.
  intros C (T & A & B & D). split; [exact T|]. split; [rewrite <- (wrapped_mint_of_curve e e' u wtp C); exact A|].
  split; [rewrite <- !(escrowed_curve e e' _ _ _ _ C); exact B|]. intros utp' T' N. rewrite <- !(escrowed_curve e e' _ _ _ _ C). exact (D utp' T' N).
Qed.
Lemma pointers_curve e e' l l' : same_curve e e' -> pointers_kept e l l' -> pointers_kept e' l l'.
Proof. intros C P u. rewrite <- (canonical_pointer_of_curve e e' u C). exact (P u). Qed.

Definition step_facts (e0 : env) (a : action) (l l' : ledger) : Prop :=
  Inv e0 l' /\ lasting l l' /\
  (forall u wtp, token_program wtp -> no_permanent_delegate u l ->
     quiet e0 u wtp l l' \/ (exists utp n n', is_wrap e0 a u wtp utp n' /\ n <= n' /\ wraps e0 u wtp utp n l l') \/
     exists utp n, is_unwrap e0 a u wtp utp n /\ unwraps e0 u wtp utp n l l') /\
  (pointers_kept e0 l l' \/
   exists u v, sets_pointer e0 a l u v /\ a_data (l' (canonical_pointer_of e0 u)) = DKey v /\
     a_owner (l' (canonical_pointer_of e0 u)) = tw_id /\
     forall u', u' <> u -> same_do (l (canonical_pointer_of e0 u')) (l' (canonical_pointer_of e0 u'))).

Lemma silent_facts e0 e a l l' :
  same_curve e e0 -> Inv e l' /\ lasting l l' /\ pointers_kept e l l' /\ silent e l l' -> step_facts e0 a l l'.
Proof.
  intros C (I & L & P & S). split; [exact (Inv_curve _ _ _ C I)|]. split; [exact L|]. split; [|left; exact (pointers_curve _ _ _ _ C P)].
  intros u wtp _ _. left. apply (quiet_curve e e0 _ _ _ _ C). apply S.
Qed.
Lemma pod_mint_data l u m : pod_unpack_mint (a_data (l u)) = Ok m -> mint_data l u m.
Proof.
  unfold pod_unpack_mint, mint_data. destruct (a_data (l u)) as [|  |m0| | |] ; try discriminate.
  - destruct (_ && _); discriminate.
  - destruct (m_init m0) eqn:E; [|discriminate]. intro H; inversion H; subst. auto.
Qed.
Lemma step_inv e0 a l l' : Inv e0 l -> step e0 a l l' -> step_facts e0 a l l'.
Proof.
  intros I S. destruct S as [e accounts input l l' L NS R|e p cpi accounts ix l l' L T NS X|e p wallet mnt l l' L T X|l l' W].
  - pose proof L as [C _]. assert (C' : same_curve e e0) by (apply same_curve_sym; exact C).
    pose proof (Inv_curve _ _ _ C I) as Ie. pose proof (lawful_self _ _ L) as Le.
    unfold runs, process_instruction in R. apply bind_ok in R. destruct R as (i & Ei & H).
    assert (CP : c_prog (mkCtx tw_id accounts) = tw_id) by reflexivity.
    assert (NS' : no_tw_signer (c_infos (mkCtx tw_id accounts))) by exact NS.
    destruct i; cbn [process_instr map_instr] in H.
    + apply (silent_facts e0 e _ _ _ C'). exact (create_step _ _ _ _ _ Ie CP H).
    + destruct (wrap_step _ _ _ _ _ Ie Le NS' CP H) as (I' & La & P & Q).
      split; [exact (Inv_curve _ _ _ C' I')|]. split; [exact La|]. split; [|left; exact (pointers_curve _ _ _ _ C' P)].
      intros u wtp Tw NP. destruct (Q u wtp Tw NP) as [Q1|(utp & n & r & s & ta & more & K & Hn & Q1)]; [left; exact (quiet_curve _ _ _ _ _ _ C' Q1)|right; left].
      exists utp, n, amount. split; [|split; [exact Hn|exact (wraps_curve _ _ _ _ _ _ _ _ C' Q1)]].
      exists e, accounts, input, r, s, ta. split; [reflexivity|]. split; [exact Ei|]. exists more. cbn [c_infos] in K. rewrite K.
      rewrite (escrow_of_curve e e0 u utp wtp C'), (wrapped_mint_of_curve e e0 u wtp C'), (authority_of_curve e e0 _ C'). reflexivity.
    + destruct (unwrap_step _ _ _ _ _ Ie Le NS' CP H) as (I' & La & P & Q).
      split; [exact (Inv_curve _ _ _ C' I')|]. split; [exact La|]. split; [|left; exact (pointers_curve _ _ _ _ C' P)].
      intros u wtp Tw NP. destruct (Q u wtp Tw NP) as [Q1|(utp & r & s & ta & more & K & Q1)]; [left; exact (quiet_curve _ _ _ _ _ _ C' Q1)|right; right].
      exists utp, amount. split; [|exact (unwraps_curve _ _ _ _ _ _ _ _ C' Q1)].
      exists e, accounts, input, r, s, ta. split; [reflexivity|]. split; [exact Ei|]. exists more. cbn [c_infos] in K. rewrite K.
      rewrite (escrow_of_curve e e0 u utp wtp C'), (wrapped_mint_of_curve e e0 u wtp C'), (authority_of_curve e e0 _ C'). reflexivity.
    + apply (silent_facts e0 e _ _ _ C'). exact (close_step _ _ _ _ Ie CP H).
    + apply (silent_facts e0 e _ _ _ C'). exact (sync_t22_step _ _ _ _ Ie CP H).
    + apply (silent_facts e0 e _ _ _ C'). exact (sync_spl_step _ _ _ _ Ie CP H).
    + destruct (set_pointer_step _ _ _ _ _ Ie CP H) as (I' & La & Si & au & u & x & more & m & K & Sg & Tu & Um & Am & Dp & Op & Ot).
      split; [exact (Inv_curve _ _ _ C' I')|]. split; [exact La|]. split.
      { intros u' wtp _ _. left. apply (quiet_curve e e0 _ _ _ _ C'). apply Si. }
      right. exists u, (e_key_of_bytes e program_id). rewrite <- (canonical_pointer_of_curve e e0 u C').
      split; [|split; [exact Dp|split; [exact Op|]]].
      * exists e, accounts, input, program_id, au, x, m. split; [reflexivity|]. split; [exact Ei|]. split; [reflexivity|].
        split; [exists more; rewrite <- (canonical_pointer_of_curve e e0 u C'); exact K|]. split; [apply signed_is_sig; exact Sg|].
        split; [exact Tu|]. split; [exact (pod_mint_data _ _ _ Um)|exact Am].
      * intros u' N. rewrite <- (canonical_pointer_of_curve e e0 u' C'). exact (Ot u' N).
  - destruct (tok_exec_good _ _ _ _ _ _ _ _ L I T NS X) as (I' & So & E).
    split; [exact I'|]. split; [exact (soft_lasting _ _ So)|]. split; [|left; exact (soft_pointers _ _ _ I So)].
    intros u wtp Tw NP. left. split; [apply soft_supply, So, is_tw_pda_wrapped|]. intros utp Tu. exact (E u utp wtp Tu (fun _ _ => NP)).
  - pose proof (ata_good _ _ _ _ _ _ _ I T X) as G. pose proof G as (I' & So & _).
    split; [exact I'|]. split; [exact (soft_lasting _ _ So)|]. split; [|left; exact (soft_pointers _ _ _ I So)].
    intros u wtp _ _. left. exact (good_quiet _ _ _ _ _ G).
  - pose proof (world_good _ _ _ I W) as G. pose proof G as (I' & So & _).
    split; [exact I'|]. split; [exact (soft_lasting _ _ So)|]. split; [|left; exact (soft_pointers _ _ _ I So)].
    intros u wtp _ _. left. exact (good_quiet _ _ _ _ _ G).
Qed.

(** ** Histories *)
Lemma history_inv e0 past l : history e0 past l -> Inv e0 l.
Proof. induction 1 as [l G|past l a l' H IH S]; [exact (genesis_inv _ _ G)|]. destruct (step_inv _ _ _ _ IH S) as (I & _). exact I. Qed.
Lemma reachable_inv e0 l : reachable e0 l -> Inv e0 l.
Proof. intros [past H]. exact (history_inv _ _ _ H). Qed.
(** Every earlier state of a history is itself reached by a history, and what it holds lasts. *)
Lemma history_lasting e0 past l : history e0 past l -> forall x, In x past -> Inv e0 x /\ lasting x l.
Proof.
  induction 1 as [l G|past l a l' H IH S]; intros x Hx; [destruct Hx|].
  pose proof (history_inv _ _ _ H) as I. destruct (step_inv _ _ _ _ I S) as (_ & La & _).
  destruct Hx as [<-|Hx]; [split; [exact I|exact La]|]. destruct (IH x Hx) as [Ix Lx]. split; [exact Ix|exact (lasting_trans _ _ _ Lx La)].
Qed.

Lemma history_backing e0 past l u wtp :
  history e0 past l -> token_program wtp -> ever (no_permanent_delegate u) past l ->
  supply l (wrapped_mint_of e0 u wtp) <= escrowed e0 l u spl_token_id wtp + escrowed e0 l u t22_id wtp.
Proof.
  intros H T. induction H as [l G|past l a l' H IH S]; intro EV.
  - destruct G as (_ & _ & _ & _ & PD). destruct (PD _ (or_introl (is_tw_pda_wrapped e0 u wtp))) as [D _]. unfold supply at 1. rewrite D. lia.
  - assert (EV0 : ever (no_permanent_delegate u) past l) by (intros x Hx; apply EV; right; exact Hx).
    specialize (IH EV0). assert (NP : no_permanent_delegate u l) by (apply EV; right; left; reflexivity).
    assert (Ts : token_program spl_token_id) by (left; reflexivity). assert (Tt : token_program t22_id) by (right; reflexivity).
    destruct (step_inv _ _ _ _ (history_inv _ _ _ H) S) as (_ & _ & Q & _).
    destruct (Q u wtp T NP) as [[Q1 Q2]|[(utp & n & n' & _ & _ & Tu & Q1 & Q2 & Q3)|(utp & n & _ & Tu & Q1 & Q2 & Q3)]].
    + pose proof (Q2 _ Ts). pose proof (Q2 _ Tt). lia.
    + pose proof (Q3 _ Ts). pose proof (Q3 _ Tt). destruct Tu as [-> | ->]; lia.
    + assert (D1 : spl_token_id <> t22_id) by discriminate. assert (D2 : t22_id <> spl_token_id) by discriminate.
      destruct Tu as [-> | ->]; [pose proof (Q3 _ Tt D2)|pose proof (Q3 _ Ts D1)]; lia.
Qed.
