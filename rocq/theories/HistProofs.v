(** * HistProofs.v — the properties of histories, derived from the invariant. *)
From Verif Require Import Base Codec State Pda TokenProg Cpi Meta Processor Tac PdaProofs TokProofs FrameProofs ProcProofs
  Spec SpecLemmas InvTok InvCons HistorySpec InvState InvTw InvHist.

Lemma wrapped_kinds p w a x : wrapped_exts p w a x -> promised_extensions p w a (filter (fun y => negb (mint_ext_kind y =? 19)) x).
Proof. intros [[[-> ->]|[-> ->]]|(-> & t & -> & _)]; [left|right|right]; split; reflexivity. Qed.
Lemma wrapped_acct_mint e0 l p w : wrapped_acct e0 p w (l w) -> exists m, mint_account l w p m /\ m_auth m = Some (authority_of e0 w) /\
  promised_extensions p w (authority_of e0 w) (other_extensions m).
Proof.
  intros (O & m & D & Hi & A & X). exists m. split; [split; [exact O|split; [exact D|exact Hi]]|]. split; [exact A|]. exact (wrapped_kinds _ _ _ _ X).
Qed.

Lemma owned_not_system p (a : account) : spl_or_t22 p -> a_owner a = p -> a_owner a = system_id -> False.
Proof. intros [-> | ->] A B; rewrite A in B; discriminate. Qed.
Lemma together_l e0 l u wtp : reachable e0 l -> spl_or_t22 wtp ->
  let w := wrapped_mint_of e0 u wtp in let b := backpointer_of e0 w in
  (unallocated l w /\ unallocated l b) \/
  (exists m, mint_account l w wtp m /\ m_auth m = Some (authority_of e0 w) /\ a_owner (l b) = tw_id /\ a_data (l b) = DKey u).
Proof.
  intros R T w b. apply reachable_inv in R. pose proof (inv_pair _ _ R u wtp T) as [P1 P2]. fold w b in P1, P2.
  destruct (inv_wrapped e0 l u wtp R) as [B|[_ W]].
  - left. split; [exact B|exact (P1 B)].
  - right. destruct (wrapped_acct_mint _ _ _ _ W) as (m & M & A & _). exists m. split; [exact M|]. split; [exact A|].
    destruct (inv_backpointer e0 l u wtp R) as [B|(_ & O & D)]; [|split; [exact O|exact D]].
    exfalso. apply P2 in B. destruct M as [O _]. destruct B as [_ B]. exact (owned_not_system _ _ T O B).
Qed.

Lemma past_reachable e0 past l : history e0 past l -> forall x, In x past -> reachable e0 x.
Proof.
  induction 1 as [l G|past l a l' H IH S]; intros x Hx; [destruct Hx|]. destruct Hx as [<-|Hx]; [exists past; exact H|exact (IH x Hx)].
Qed.
Lemma unallocated_dec l k : {unallocated l k} + {~ unallocated l k}.
Proof.
  unfold unallocated. destruct (pk_dec (a_owner (l k)) system_id) as [E|E]; [|right; intros [_ Q]; contradiction].
  destruct (a_data (l k)) as [[|x r]|d|m|t|m|m] eqn:D; try (right; intros [Q _]; discriminate). left. auto.
Qed.
Lemma persists_l e0 past l u wtp x : history e0 past l -> spl_or_t22 wtp -> In x (l :: past) ->
  let w := wrapped_mint_of e0 u wtp in
  ~ unallocated x w -> ~ unallocated l w.
Proof.
  intros H T [<-|Hx] w N; [exact N|]. destruct (history_lasting _ _ _ H x Hx) as [_ L].
  destruct (L w (is_tw_pda_wrapped e0 u wtp)) as [B _]. intro Z. apply N. exact (B Z).
Qed.
Lemma backpointer_l e0 past l u wtp x : history e0 past l -> spl_or_t22 wtp -> In x (l :: past) ->
  let w := wrapped_mint_of e0 u wtp in let b := backpointer_of e0 w in
  ~ unallocated x w \/ ~ unallocated x b ->
  a_owner (l b) = tw_id /\ a_data (l b) = DKey u.
Proof.
  intros H T Hx w b N.
  assert (R : reachable e0 l) by (exists past; exact H).
  assert (Rx : reachable e0 x) by (destruct Hx as [<-|Hx]; [exact R|exact (past_reachable _ _ _ H x Hx)]).
  assert (N' : ~ unallocated x w).
  { destruct N as [N|N]; [exact N|]. destruct (together_l e0 x u wtp Rx T) as [[_ B]|(m & _ & _ & O & _)]; [contradiction|].
    intro Q. destruct (together_l e0 x u wtp Rx T) as [[_ B]|(m' & [O' _] & _)]; [contradiction|].
    destruct Q as [_ Q]. exact (owned_not_system _ _ T O' Q). }
  pose proof (persists_l e0 past l u wtp x H T Hx N') as NL.
  destruct (together_l e0 l u wtp R T) as [[B _]|(m & _ & _ & O & D)]; [exfalso; exact (NL B)|]. split; [exact O|exact D].
Qed.

Lemma config_l e0 past l u wtp x m : history e0 past l -> spl_or_t22 wtp -> In x (l :: past) ->
  let w := wrapped_mint_of e0 u wtp in
  mint_account x w wtp m -> exists m', mint_account l w wtp m' /\ m_decimals m' = m_decimals m /\
    m_auth m = Some (authority_of e0 w) /\ m_auth m' = Some (authority_of e0 w) /\
    other_extensions m' = other_extensions m /\ promised_extensions wtp w (authority_of e0 w) (other_extensions m').
Proof.
  intros H T Hx w M. pose proof (history_inv _ _ _ H) as I.
  assert (LL : Inv e0 x /\ exists m1, a_data (l w) = DMint m1 /\ m_decimals m1 = m_decimals m).
  { destruct Hx as [<-|Hx]; [split; [exact I|]; exists m; destruct M as [_ [D _]]; auto|].
    destruct (history_lasting _ _ _ H x Hx) as [Ix L]. split; [exact Ix|].
    destruct (L w (is_tw_pda_wrapped e0 u wtp)) as [_ B]. destruct M as [_ [D _]]. destruct (B m D) as (m1 & D1 & E1). exists m1. auto. }
  destruct LL as (Ix & m1 & D1 & E1).
  assert (ST : forall y my, Inv e0 y -> a_data (y w) = DMint my -> mint_account y w wtp my /\ m_auth my = Some (authority_of e0 w) /\
             promised_extensions wtp w (authority_of e0 w) (other_extensions my)).
  { intros y my Iy Dy. destruct (inv_wrapped e0 y u wtp Iy) as [[B _]|[_ W]]; [fold w in B; rewrite Dy in B; discriminate|].
    destruct (wrapped_acct_mint _ _ _ _ W) as (m' & M' & A' & X'). pose proof M' as [_ [D' _]]. fold w in D'. rewrite Dy in D'. inversion D'; subst m'. split; [exact M'|]. split; [exact A'|exact X']. }
  assert (Dx : a_data (x w) = DMint m) by (destruct M as [_ [D _]]; exact D).
  destruct (ST x m Ix Dx) as (_ & A & X). destruct (ST l m1 I D1) as (M1 & A1 & X1).
  exists m1. split; [exact M1|]. split; [exact E1|]. split; [exact A|]. split; [exact A1|]. split; [|exact X1].
  destruct X as [[P X]|[P X]], X1 as [[P1 X1]|[P1 X1]]; try congruence; rewrite P1 in P; discriminate.
Qed.

(** Only the mint's own token program can hold its tokens. *)
Lemma other_program_empty e0 l u utp q wtp : Inv e0 l -> spl_or_t22 utp -> token_program q -> a_owner (l u) = utp -> q <> utp -> escrowed e0 l u q wtp = 0.
Proof.
  intros I T Tq O N. destruct (N.eq_0_gt_0_cases (escrowed e0 l u q wtp)) as [Z|G]; [exact Z|exfalso].
  destruct (escrowed_inv _ _ _ _ _ G) as (t & D & Oe & M & _ & A). rewrite A in G.
  destruct (held_mint e0 l q _ t I Tq Oe D G) as [Hn|(m & Om & _)]; [|apply N; congruence]. rewrite M in Hn.
  unfold is_native_mint in Hn. apply pk_eqb_eq in Hn. destruct Tq as [-> | ->]; cbn in Hn.
  - destruct (inv_sol _ _ I) as [Os _]. clear - Os O N Hn. congruence.
  - assert (M' : t_mint t = native_mint_2022_id) by (clear - M Hn; congruence). pose proof (inv_native _ _ I _ _ Oe D M') as Os. clear - Os O N Hn. congruence.
Qed.
Lemma escrowed_balance e0 l u utp wtp : escrowed e0 l u utp wtp <= balance l (escrow_of e0 u utp wtp).
Proof.
  unfold escrowed, balance. cbv zeta. destruct (a_data (l (escrow_of e0 u utp wtp))); try lia. destruct (_ && _); lia.
Qed.
Lemma backed_l e0 past l u utp wtp : history e0 past l -> spl_or_t22 wtp -> spl_or_t22 utp -> a_owner (l u) = utp ->
  ever (no_permanent_delegate u) past l ->
  supply l (wrapped_mint_of e0 u wtp) <= escrowed e0 l u utp wtp /\ supply l (wrapped_mint_of e0 u wtp) <= balance l (escrow_of e0 u utp wtp).
Proof.
  intros H T Tu O EV. pose proof (history_backing _ _ _ u wtp H T EV) as B. pose proof (history_inv _ _ _ H) as I.
  assert (supply l (wrapped_mint_of e0 u wtp) <= escrowed e0 l u utp wtp).
  { assert (D1 : spl_token_id <> t22_id) by discriminate. assert (D2 : t22_id <> spl_token_id) by discriminate.
    destruct Tu as [-> | ->].
    - rewrite (other_program_empty e0 l u spl_token_id t22_id wtp I) in B; [lia|left; reflexivity|right; reflexivity|exact O|exact D2].
    - rewrite (other_program_empty e0 l u t22_id spl_token_id wtp I) in B; [lia|right; reflexivity|left; reflexivity|exact O|exact D1]. }
  split; [assumption|]. pose proof (escrowed_balance e0 l u utp wtp). lia.
Qed.

Lemma payout_l e0 a l l' u utp wtp : reachable e0 l -> step e0 a l l' -> spl_or_t22 wtp -> spl_or_t22 utp -> no_permanent_delegate u l ->
  escrowed e0 l' u utp wtp < escrowed e0 l u utp wtp ->
  exists n, is_unwrap e0 a u wtp utp n /\ escrowed e0 l u utp wtp = escrowed e0 l' u utp wtp + n /\
    supply l (wrapped_mint_of e0 u wtp) = supply l' (wrapped_mint_of e0 u wtp) + n.
Proof.
  intros R S T Tu NP LT. apply reachable_inv in R. destruct (step_inv _ _ _ _ R S) as (_ & _ & Q & _).
  destruct (Q u wtp T NP) as [[_ Q2]|[(utp' & n & n' & _ & _ & _ & _ & _ & Q3)|(utp' & n & A & Tu' & Q1 & Q2 & Q3)]].
  - specialize (Q2 _ Tu). lia.
  - specialize (Q3 _ Tu). lia.
  - destruct (pk_dec utp utp') as [->|Hne]; [|specialize (Q3 _ Tu Hne); lia]. exists n. split; [exact A|]. split; [exact Q2|exact Q1].
Qed.
Lemma issue_l e0 a l l' u wtp : reachable e0 l -> step e0 a l l' -> spl_or_t22 wtp -> no_permanent_delegate u l ->
  supply l (wrapped_mint_of e0 u wtp) < supply l' (wrapped_mint_of e0 u wtp) ->
  exists utp n, is_wrap e0 a u wtp utp n /\ spl_or_t22 utp /\
    supply l' (wrapped_mint_of e0 u wtp) - supply l (wrapped_mint_of e0 u wtp) <= n /\
    supply l' (wrapped_mint_of e0 u wtp) - supply l (wrapped_mint_of e0 u wtp) <= escrowed e0 l' u utp wtp - escrowed e0 l u utp wtp.
Proof.
  intros R S T NP LT. apply reachable_inv in R. destruct (step_inv _ _ _ _ R S) as (_ & _ & Q & _).
  destruct (Q u wtp T NP) as [[Q1 _]|[(utp & n & n' & A & Hn & Tu & Q1 & Q2 & Q3)|(utp' & n & A & Tu' & Q1 & Q2 & Q3)]]; [lia| |lia].
  exists utp, n'. split; [exact A|]. split; [exact Tu|]. lia.
Qed.
Lemma pointer_l e0 a l l' u : reachable e0 l -> step e0 a l l' ->
  let p := canonical_pointer_of e0 u in
  a_data (l' p) <> a_data (l p) \/ a_owner (l' p) <> a_owner (l p) ->
  exists v, sets_pointer e0 a l u v /\ a_data (l' p) = DKey v /\ a_owner (l' p) = tw_id.
Proof.
  intros R S p N. apply reachable_inv in R. destruct (step_inv _ _ _ _ R S) as (_ & _ & _ & Q).
  destruct Q as [Q|(u' & v & A & D & O & Q)].
  - exfalso. destruct (Q u) as [Q1 Q2]. fold p in Q1, Q2. destruct N; contradiction.
  - destruct (pk_dec u u') as [->|Hne]; [exists v; split; [exact A|split; [exact D|exact O]]|].
    exfalso. destruct (Q u Hne) as [Q1 Q2]. fold p in Q1, Q2. destruct N; contradiction.
Qed.
Lemma pointer_state_l e0 l u : reachable e0 l -> let p := canonical_pointer_of e0 u in
  unallocated l p \/ exists v, a_owner (l p) = tw_id /\ a_data (l p) = DKey v.
Proof.
  intros R p. apply reachable_inv in R. destruct (inv_pda _ _ _ R (is_tw_pda_canonical e0 u)) as [B|[(u' & q & _ & E & _)|[(u' & q & _ & E & _)|(u' & v & E & O & D)]]].
  - left; exact B.
  - exfalso. symmetry in E. revert E. apply wrapped_neq_canonical.
  - exfalso. symmetry in E. revert E. apply backpointer_neq_canonical.
  - right. exists v. auto.
Qed.
