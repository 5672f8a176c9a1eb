(** * Programs with shared index lists: the invariant and its preservation. *)
From Coq Require Import Lia.
From Verif Require Import Py PyFacts ConnProofs IndexList Conn IndexHeap IndexHeapSpec.

Definition in_rep (r : rep) (l : loc) : Prop := r = RRange l \/ r = RList l.
Definition entry (s : mem) (c : loc) (t : string) (o : loc) : Prop :=
  exists n d m, nth_error (conns s) c = Some (n, d) /\ In (t, (o, m)) d.

(** [E x]: the list of variable [x] may be part of an index list; [G x]: the index list of variable [x] was given. *)
Record inv (E G : var -> Prop) (s : mem) (ps : list pval) : Prop := Inv {
  i_len : List.length (vars s) = List.length ps;
  i_none : forall x, nth_error (vars s) x = Some VNone -> nth_error ps x = Some PNone;
  i_list : forall x l, nth_error (vars s) x = Some (VList l) -> exists w, nth_error (lists s) l = Some w /\ nth_error ps x = Some (PList w);
  i_obj : forall x o, nth_error (vars s) x = Some (VObj o) -> exists il, nth_error ps x = Some (PIdx il) /\ (~ G x -> view s o = Some il);
  i_conn : forall x c, nth_error (vars s) x = Some (VConn c) -> exists n d d', nth_error (conns s) c = Some (n, d) /\ nth_error ps x = Some (PConn (EC n d')) /\ Forall2 (entry_ok s) d d';
  i_objb : forall x o, nth_error (vars s) x = Some (VObj o) -> (o < List.length (objs s))%nat;
  i_inj : forall x y o, nth_error (vars s) x = Some (VObj o) -> nth_error (vars s) y = Some (VObj o) -> x = y;
  i_cinj : forall x y c, nth_error (vars s) x = Some (VConn c) -> nth_error (vars s) y = Some (VConn c) -> x = y;
  i_entb : forall c t o, entry s c t o -> (o < List.length (objs s))%nat;
  i_entinj : forall c t c' t' o, entry s c t o -> entry s c' t' o -> c = c' /\ t = t';
  i_own : forall x c t o, nth_error (vars s) x = Some (VObj o) -> entry s c t o -> G x;
  i_locs : forall o r l, nth_error (objs s) o = Some r -> in_rep r l -> (l < List.length (lists s))%nat;
  i_sep : forall x l, nth_error (vars s) x = Some (VList l) -> ~ E x ->
            (forall o r, nth_error (objs s) o = Some r -> ~ in_rep r l) /\ (forall y, nth_error (vars s) y = Some (VList l) -> y = x);
  i_keys : forall c n d, nth_error (conns s) c = Some (n, d) -> NoDup (dkeys d) }.

Lemma inv0 E G : inv E G mem0 [].
Proof. split; cbn; try reflexivity; intros; try (destruct x; discriminate); try (destruct o; discriminate); try (destruct c; discriminate); destruct H as (? & ? & ? & H & _); destruct c; discriminate. Qed.

Lemma inv_mono (E E' G G' : var -> Prop) s ps : (forall x, E x -> E' x) -> (forall x, G x -> G' x) -> inv E G s ps -> inv E' G' s ps.
Proof.
  intros HE HG I. destruct I. split; try assumption.
  - intros x o H. destruct (i_obj0 x o H) as (il & A & B). exists il. split; [exact A|]. intros N. apply B. intros X. exact (N (HG _ X)).
  - intros x c t o H1 H2. apply HG. eauto.
  - intros x l H N. apply i_sep0; [exact H|]. intros X. exact (N (HE _ X)).
Qed.

(** ** Views *)
Lemma nth_app1 {A} (l r : list A) n : (n < List.length l)%nat -> nth_error (l ++ r) n = nth_error l n.
Proof. intros H. apply nth_error_app1. exact H. Qed.
Lemma nth_new {A} (l : list A) v : nth_error (l ++ [v]) (List.length l) = Some v.
Proof. rewrite nth_error_app2 by lia. rewrite Nat.sub_diag. reflexivity. Qed.
Lemma nth_some_lt {A} (l : list A) n v : nth_error l n = Some v -> (n < List.length l)%nat.
Proof. intros H. apply nth_error_Some. congruence. Qed.
Lemma nth_snoc {A} (l : list A) v n w : nth_error (l ++ [v]) n = Some w -> nth_error l n = Some w \/ (n = List.length l /\ w = v).
Proof.
  intros H. destruct (Nat.lt_ge_cases n (List.length l)) as [L|L]; [left; rewrite <- H; symmetry; apply nth_app1; exact L|].
  right. rewrite nth_error_app2 in H by exact L. destruct (n - List.length l)%nat as [|k] eqn:E.
  - cbn in H. injection H as ->. split; [lia|reflexivity].
  - cbn in H. destruct k; discriminate.
Qed.
Lemma nth_upd_same {A} (l : list A) n v : (n < List.length l)%nat -> nth_error (upd_nat l n v) n = Some v.
Proof. intros H. rewrite nth_error_upd_nat, Nat.eqb_refl. apply Nat.ltb_lt in H. rewrite H. reflexivity. Qed.
Lemma nth_upd_other {A} (l : list A) n v m : m <> n -> nth_error (upd_nat l n v) m = nth_error l m.
Proof. intros H. rewrite nth_error_upd_nat. destruct (Nat.eqb_spec n m) as [->|_]; [congruence|reflexivity]. Qed.

Lemma view_rep_ext ls ls' r : (forall l, in_rep r l -> nth_error ls' l = nth_error ls l) -> view_rep ls' r = view_rep ls r.
Proof. intros H. destruct r as [|l|l]; cbn; [reflexivity| |]; rewrite (H l) by (unfold in_rep; auto); reflexivity. Qed.

Lemma entry_ok_ext s s' d d' : (forall t o m, In (t, (o, m)) d -> view s' o = view s o) -> Forall2 (entry_ok s) d d' -> Forall2 (entry_ok s') d d'.
Proof.
  intros H F. induction F as [|[t [o m]] b d d' (A & B & C) F IH]; [constructor|]. constructor.
  - split; [exact A|]. split; [exact B|]. cbn [fst snd] in *. rewrite (H t o m) by (left; reflexivity). exact C.
  - apply IH. intros t' o' m' Hin. apply (H t' o' m'). right. exact Hin.
Qed.

(** ** Elementary changes *)
Lemma inv_new_list E G s ps v : inv E G s ps -> inv E G (fst (new_list s v)) ps.
Proof.
  intros I. destruct I. set (s' := fst (new_list s v)).
  assert (Hv : forall o, view s' o = view s o).
  { intros o. unfold view, s', new_list. cbn. destruct (nth_error (objs s) o) as [r|] eqn:Eo; [|reflexivity]. apply view_rep_ext. intros l Hl. apply nth_app1. eauto. }
  split; try assumption.
  - intros x l H. destruct (i_list0 x l H) as (w & A & B). exists w. split; [|exact B]. unfold s', new_list. cbn. rewrite nth_app1; [exact A|]. eapply nth_some_lt. exact A.
  - intros x o H. destruct (i_obj0 x o H) as (il & A & B). exists il. split; [exact A|]. rewrite Hv. exact B.
  - intros x c H. destruct (i_conn0 x c H) as (n & d & d' & A & B & C). exists n, d, d'. split; [exact A|]. split; [exact B|]. eapply entry_ok_ext; [|exact C]. intros. apply Hv.
  - intros o r l H1 H2. unfold s', new_list. cbn. rewrite app_length. cbn. specialize (i_locs0 o r l H1 H2). lia.
Qed.

Lemma inv_new_obj E G s ps r : inv E G s ps -> (forall l, in_rep r l -> (l < List.length (lists s))%nat) ->
  (forall l x, in_rep r l -> nth_error (vars s) x = Some (VList l) -> ~ ~ E x) -> inv E G (fst (new_obj s r)) ps.
Proof.
  intros I Hb Hs. destruct I. set (s' := fst (new_obj s r)).
  assert (Hv : forall o, (o < List.length (objs s))%nat -> view s' o = view s o).
  { intros o L. unfold view, s', new_obj. cbn. rewrite nth_app1 by exact L. reflexivity. }
  split; try assumption.
  - intros x o H. destruct (i_obj0 x o H) as (il & A & B). exists il. split; [exact A|]. rewrite Hv by eauto. exact B.
  - intros x c H. destruct (i_conn0 x c H) as (n & d & d' & A & B & C). exists n, d, d'. split; [exact A|]. split; [exact B|]. eapply entry_ok_ext; [|exact C].
    intros t o m Hin. apply Hv. apply (i_entb0 c t). exists n, d, m. auto.
  - intros x o H. unfold s', new_obj. cbn. rewrite app_length. cbn. specialize (i_objb0 x o H). lia.
  - intros c t o H. unfold s', new_obj. cbn. rewrite app_length. cbn. specialize (i_entb0 c t o H). lia.
  - intros o r' l H1 H2. unfold s', new_obj in H1. cbn in H1. apply nth_snoc in H1. destruct H1 as [H1|(_ & ->)]; [eapply i_locs0; eassumption|apply Hb; exact H2].
  - intros x l H N. destruct (i_sep0 x l H N) as (A & B). split; [|exact B]. intros o r' H1 H2. unfold s', new_obj in H1. cbn in H1. apply nth_snoc in H1.
    destruct H1 as [H1|(_ & ->)]; [exact (A o r' H1 H2)|]. exact (Hs l x H2 H N).
Qed.

(** A change of the index list of a variable that was not given. *)
Lemma inv_put_obj E G s ps y o r il : inv E G s ps -> nth_error (vars s) y = Some (VObj o) -> ~ G y ->
  view_rep (lists s) r = Some il -> (forall l x, in_rep r l -> nth_error (vars s) x = Some (VList l) -> ~ ~ E x) ->
  inv E G (put_obj s o r) (upd_nat ps y (PIdx il)).
Proof.
  intros I Hy HG Hr Hs. destruct I. set (s' := put_obj s o r).
  assert (Lo := i_objb0 y o Hy).
  assert (Hv : forall o', o' <> o -> view s' o' = view s o').
  { intros o' L. unfold view, s', put_obj. cbn. rewrite nth_upd_other by exact L. reflexivity. }
  assert (Hvo : view s' o = Some il). { unfold view, s', put_obj. cbn. rewrite nth_upd_same by exact Lo. exact Hr. }
  assert (Lp : (y < List.length ps)%nat) by (rewrite <- i_len0; eapply nth_some_lt; exact Hy).
  assert (Hb : forall l, in_rep r l -> (l < List.length (lists s))%nat).
  { intros l Hl. destruct Hl as [-> | ->]; cbn in Hr; destruct (nth_error (lists s) l) eqn:El; try discriminate; eapply nth_some_lt; exact El. }
  split; try assumption; cbn [s' put_obj set_objs vars lists objs conns].
  - rewrite upd_nat_length. exact i_len0.
  - intros x H. rewrite nth_upd_other; [auto|]. intros ->. congruence.
  - intros x l H. rewrite nth_upd_other; [auto|]. intros ->. congruence.
  - intros x o' H. destruct (Nat.eq_dec x y) as [->|N].
    + rewrite Hy in H. injection H as <-. exists il. split; [apply nth_upd_same; exact Lp|]. intros _. exact Hvo.
    + rewrite nth_upd_other by exact N. destruct (i_obj0 x o' H) as (il' & A & B). exists il'. split; [exact A|]. rewrite Hv; [exact B|]. intros ->. apply N. eapply i_inj0; eassumption.
  - intros x c H. rewrite nth_upd_other by (intros ->; congruence). destruct (i_conn0 x c H) as (n & d & d' & A & B & C). exists n, d, d'. split; [exact A|]. split; [exact B|].
    eapply entry_ok_ext; [|exact C]. intros t o' m Hin. apply Hv. intros ->. apply HG. apply (i_own0 y c t o Hy). exists n, d, m. auto.
  - rewrite upd_nat_length. assumption.
  - rewrite upd_nat_length. assumption.
  - intros o' r' l H1 H2. destruct (Nat.eq_dec o' o) as [->|N].
    + rewrite nth_upd_same in H1 by exact Lo. injection H1 as <-. apply Hb. exact H2.
    + rewrite nth_upd_other in H1 by exact N. eapply i_locs0; eassumption.
  - intros x l H N. destruct (i_sep0 x l H N) as (A & B). split; [|exact B]. intros o' r' H1 H2. destruct (Nat.eq_dec o' o) as [->|N'].
    + rewrite nth_upd_same in H1 by exact Lo. injection H1 as <-. exact (Hs l x H2 H N).
    + rewrite nth_upd_other in H1 by exact N'. exact (A o' r' H1 H2).
Qed.

(** The user changes a list that is not part of an index list. *)
Lemma inv_mut E G s ps x l v : inv E G s ps -> nth_error (vars s) x = Some (VList l) -> ~ E x ->
  inv E G (set_lists s (upd_nat (lists s) l v)) (upd_nat ps x (PList v)).
Proof.
  intros I Hx HE. destruct I. destruct (i_sep0 x l Hx HE) as (Sa & Sb). set (s' := set_lists s _).
  assert (Ll : (l < List.length (lists s))%nat) by (destruct (i_list0 x l Hx) as (w & A & _); eapply nth_some_lt; exact A).
  assert (Lp : (x < List.length ps)%nat) by (rewrite <- i_len0; eapply nth_some_lt; exact Hx).
  assert (Hv : forall o, view s' o = view s o).
  { intros o. unfold view, s'. cbn. destruct (nth_error (objs s) o) as [r|] eqn:Eo; [|reflexivity]. apply view_rep_ext. intros l' Hl'. apply nth_upd_other. intros ->. exact (Sa o r Eo Hl'). }
  split; try assumption; cbn [s' set_lists vars lists objs conns].
  - rewrite upd_nat_length. exact i_len0.
  - intros y H. rewrite nth_upd_other by (intros ->; congruence). auto.
  - intros y l' H. destruct (Nat.eq_dec y x) as [->|N].
    + rewrite Hx in H. injection H as <-. exists v. split; apply nth_upd_same; assumption.
    + destruct (i_list0 y l' H) as (w & A & B). exists w. rewrite nth_upd_other by (intros ->; apply N; apply Sb; exact H). rewrite nth_upd_other by exact N. auto.
  - intros y o H. rewrite nth_upd_other by (intros ->; congruence). destruct (i_obj0 y o H) as (il & A & B). exists il. split; [exact A|]. rewrite Hv. exact B.
  - intros y c H. rewrite nth_upd_other by (intros ->; congruence). destruct (i_conn0 y c H) as (n & d & d' & A & B & C). exists n, d, d'. split; [exact A|]. split; [exact B|].
    eapply entry_ok_ext; [|exact C]. intros. apply Hv.
  - intros o r l' H1 H2. rewrite upd_nat_length. eapply i_locs0; eassumption.
Qed.

(** A new variable. *)
Definition push (s : mem) (v : hval) : mem := Mem (lists s) (objs s) (conns s) (vars s ++ [v]).
Lemma inv_push E G s ps v pv : inv E G s ps ->
  match v, pv with
  | VNone, PNone => True
  | VList l, PList w => nth_error (lists s) l = Some w /\
      (~ E (List.length (vars s)) -> (forall o r, nth_error (objs s) o = Some r -> ~ in_rep r l)) /\
      (forall y, nth_error (vars s) y = Some (VList l) -> ~ ~ E y) /\
      (~ E (List.length (vars s)) -> forall y, nth_error (vars s) y <> Some (VList l))
  | VObj o, PIdx il => view s o = Some il /\ (forall y, nth_error (vars s) y <> Some (VObj o)) /\ (forall c t, ~ entry s c t o)
  | VConn c, PConn (EC n d') => exists d, nth_error (conns s) c = Some (n, d) /\ Forall2 (entry_ok s) d d' /\ (forall y, nth_error (vars s) y <> Some (VConn c))
  | _, _ => False
  end -> inv E G (push s v) (ps ++ [pv]).
Proof.
  intros I H. destruct I. set (n0 := List.length (vars s)) in *.
  assert (Hview : forall o, view (push s v) o = view s o) by reflexivity.
  assert (Hent : forall c t o, entry (push s v) c t o <-> entry s c t o) by (intros; reflexivity).
  assert (Hok : forall d d', Forall2 (entry_ok (push s v)) d d' <-> Forall2 (entry_ok s) d d') by (intros; reflexivity).
  assert (New : nth_error (ps ++ [pv]) n0 = Some pv) by (rewrite i_len0; apply nth_new).
  assert (Old : forall x w, nth_error ps x = Some w -> nth_error (ps ++ [pv]) x = Some w) by (intros x w Hx; rewrite nth_app1; [exact Hx|eapply nth_some_lt; exact Hx]).
  split; cbn [push vars lists objs conns]; try assumption.
  - rewrite !app_length. f_equal. exact i_len0.
  - intros x Hx. apply nth_snoc in Hx. destruct Hx as [Hx|(-> & <-)]; [auto|]. fold n0. rewrite New. destruct pv; try contradiction. reflexivity.
  - intros x l Hx. apply nth_snoc in Hx. destruct Hx as [Hx|(-> & <-)].
    + destruct (i_list0 x l Hx) as (w & A & B). exists w. auto.
    + destruct pv as [|w| |]; try contradiction. exists w. fold n0. rewrite New. split; [apply H|reflexivity].
  - intros x o Hx. apply nth_snoc in Hx. destruct Hx as [Hx|(-> & <-)].
    + destruct (i_obj0 x o Hx) as (il & A & B). exists il. auto.
    + destruct pv as [| |il|]; try contradiction. exists il. fold n0. rewrite New. split; [reflexivity|]. intros _. apply H.
  - intros x c Hx. apply nth_snoc in Hx. destruct Hx as [Hx|(-> & <-)].
    + destruct (i_conn0 x c Hx) as (n & d & d' & A & B & C). exists n, d, d'. auto.
    + destruct pv as [| | |[n d']]; try contradiction. destruct H as (d & A & B & _). exists n, d, d'. fold n0. rewrite New. auto.
  - intros x o Hx. apply nth_snoc in Hx. destruct Hx as [Hx|(-> & <-)]; [eauto|]. destruct pv as [| |il|]; try contradiction. destruct H as (A & _).
    unfold view in A. destruct (nth_error (objs s) o) eqn:Eo; [|discriminate]. eapply nth_some_lt. exact Eo.
  - intros x y o Hx Hy. apply nth_snoc in Hx. apply nth_snoc in Hy. destruct Hx as [Hx|(-> & Ex)]; destruct Hy as [Hy|(-> & Ey)].
    + eauto.
    + subst v. destruct pv; try contradiction. destruct H as (_ & B & _). destruct (B x Hx).
    + subst v. destruct pv; try contradiction. destruct H as (_ & B & _). destruct (B y Hy).
    + reflexivity.
  - intros x y c Hx Hy. apply nth_snoc in Hx. apply nth_snoc in Hy. destruct Hx as [Hx|(-> & Ex)]; destruct Hy as [Hy|(-> & Ey)].
    + eauto.
    + subst v. destruct pv as [| | |[n d']]; try contradiction. destruct H as (d & _ & _ & B). destruct (B x Hx).
    + subst v. destruct pv as [| | |[n d']]; try contradiction. destruct H as (d & _ & _ & B). destruct (B y Hy).
    + reflexivity.
  - intros x c t o Hx He. apply nth_snoc in Hx. destruct Hx as [Hx|(-> & Ex)]; [eauto|]. subst v. destruct pv; try contradiction. destruct H as (_ & _ & B). destruct (B c t He).
  - intros x l Hx N. apply nth_snoc in Hx. destruct Hx as [Hx|(-> & Ex)].
    + destruct (i_sep0 x l Hx N) as (A & B). split; [exact A|]. intros y Hy. apply nth_snoc in Hy. destruct Hy as [Hy|(-> & Ey)]; [auto|].
      subst v. destruct pv; try contradiction. destruct H as (_ & _ & C & _). exfalso. exact (C x Hx N).
    + subst v. destruct pv; try contradiction. destruct H as (_ & A & _ & C). fold n0 in N. split; [apply A; exact N|].
      intros y Hy. apply nth_snoc in Hy. destruct Hy as [Hy|(-> & _)]; [destruct (C N y Hy)|reflexivity].
Qed.

(** A change of one connectivity and of the index lists it holds. *)
Lemma inv_conn (E G G' : var -> Prop) s ps cx lc n d n1 d1 d1' objs' : inv E G s ps ->
  nth_error (vars s) cx = Some (VConn lc) -> nth_error (conns s) lc = Some (n, d) -> (forall x, G x -> G' x) ->
  List.length objs' = List.length (objs s) ->
  (forall o, ~ (exists t, entry s lc t o) -> nth_error objs' o = nth_error (objs s) o) ->
  (forall o r l, nth_error objs' o = Some r -> in_rep r l -> (l < List.length (lists s))%nat /\ (nth_error (objs s) o = Some r \/ forall x, nth_error (vars s) x <> Some (VList l))) ->
  let s' := Mem (lists s) objs' (upd_nat (conns s) lc (n1, d1)) (vars s) in
  Forall2 (entry_ok s') d1 d1' -> NoDup (dkeys d1) ->
  (forall t o m, In (t, (o, m)) d1 -> entry s lc t o \/
     ((o < List.length (objs s))%nat /\ (forall c t', ~ entry s c t' o) /\ (forall x, nth_error (vars s) x = Some (VObj o) -> G' x) /\ (forall t' m', In (t', (o, m')) d1 -> t' = t))) ->
  inv E G' s' (upd_nat ps cx (PConn (EC n1 d1'))).
Proof.
  intros I Hcx Hlc HG Hlen Hsame Hlocs s' Hok Hnd Hent. destruct I.
  assert (Lc : (lc < List.length (conns s))%nat) by (eapply nth_some_lt; exact Hlc).
  assert (Lp : (cx < List.length ps)%nat) by (rewrite <- i_len0; eapply nth_some_lt; exact Hcx).
  assert (Hv : forall o, ~ (exists t, entry s lc t o) -> view s' o = view s o).
  { intros o N. unfold view, s'. cbn. rewrite Hsame by exact N. reflexivity. }
  assert (Hentry : forall c t o, entry s' c t o -> (c <> lc /\ entry s c t o) \/ (c = lc /\ exists m, In (t, (o, m)) d1)).
  { intros c t o (n' & d' & m & A & B). unfold s' in A. cbn in A. destruct (Nat.eq_dec c lc) as [->|N].
    - rewrite nth_upd_same in A by exact Lc. injection A as <- <-. right. eauto.
    - rewrite nth_upd_other in A by exact N. left. split; [exact N|]. exists n', d', m. auto. }
  split; cbn [s' vars lists objs conns]; try assumption.
  - rewrite upd_nat_length. exact i_len0.
  - intros x H. rewrite nth_upd_other by (intros ->; congruence). auto.
  - intros x l H. rewrite nth_upd_other by (intros ->; congruence). auto.
  - intros x o H. rewrite nth_upd_other by (intros ->; congruence). destruct (i_obj0 x o H) as (il & A & B). exists il. split; [exact A|].
    intros N. rewrite Hv; [apply B; intros X; exact (N (HG x X))|]. intros (t & X). apply N. apply HG. eapply i_own0; eassumption.
  - intros x c H. destruct (Nat.eq_dec x cx) as [->|N].
    + rewrite Hcx in H. injection H as <-. exists n1, d1, d1'. split; [apply nth_upd_same; exact Lc|]. split; [apply nth_upd_same; exact Lp|exact Hok].
    + assert (Nc : c <> lc) by (intros ->; apply N; eapply i_cinj0; eassumption).
      destruct (i_conn0 x c H) as (n' & d0 & d0' & A & B & C). exists n', d0, d0'. rewrite !nth_upd_other by assumption. split; [exact A|]. split; [exact B|].
      eapply entry_ok_ext; [|exact C]. intros t o m Hin. apply Hv. intros (t' & X). apply Nc. apply (i_entinj0 c t lc t' o); [exists n', d0, m; auto|exact X].
  - intros x o H. rewrite Hlen. eauto.
  - intros c t o H. rewrite Hlen. apply Hentry in H. destruct H as [(_ & H)|(_ & m & H)]; [eauto|]. destruct (Hent t o m H) as [X|(X & _)]; [eauto|exact X].
  - intros c t c' t' o H H'. apply Hentry in H. apply Hentry in H'. destruct H as [(N & H)|(-> & m & H)]; destruct H' as [(N' & H')|(-> & m' & H')].
    + eauto.
    + exfalso. destruct (Hent t' o m' H') as [X|(_ & X & _)]; [apply N; apply (i_entinj0 c t lc t' o H X)|exact (X c t H)].
    + exfalso. destruct (Hent t o m H) as [X|(_ & X & _)]; [apply N'; apply (i_entinj0 c' t' lc t o H' X)|exact (X c' t' H')].
    + split; [reflexivity|]. destruct (Hent t o m H) as [X|(_ & X & _ & U)].
      * destruct (Hent t' o m' H') as [X'|(_ & X' & _)]; [apply (i_entinj0 lc t lc t' o X X')|destruct (X' _ _ X)].
      * symmetry. apply (U t' m' H').
  - intros x c t o H H'. apply Hentry in H'. destruct H' as [(_ & H')|(-> & m & H')]; [apply HG; eauto|].
    destruct (Hent t o m H') as [X|(_ & _ & X & _)]; [apply HG; eauto|auto].
  - intros o r l H H'. apply (Hlocs o r l H H').
  - intros x l H N. destruct (i_sep0 x l H N) as (A & B). split; [|exact B]. intros o r H1 H2. destruct (Hlocs o r l H1 H2) as (_ & [X|X]); [exact (A o r X H2)|exact (X x H)].
  - intros c n' d' H. destruct (Nat.eq_dec c lc) as [->|N].
    + rewrite nth_upd_same in H by exact Lc. injection H as <- <-. exact Hnd.
    + rewrite nth_upd_other in H by exact N. eauto.
Qed.

(** ** Reading *)
Lemma obj_list_view s o il : view s o = Some il -> il_boxed il = false /\ obj_list s o = il_list il.
Proof.
  unfold view, obj_list, find. destruct (nth_error (objs s) o) as [r|]; [|discriminate]. cbn [bind]. destruct r as [|l|l]; cbn [view_rep].
  - intros H. injection H as <-. split; reflexivity.
  - destruct (nth_error (lists s) l) as [[|a [|b [|? ?]]]|]; try discriminate. intros H. injection H as <-. split; reflexivity.
  - destruct (nth_error (lists s) l) as [v|]; [|discriminate]. intros H. injection H as <-. split; reflexivity.
Qed.
Lemma il_entries_list il : il_boxed il = false -> il_entries il = il_list il.
Proof. destruct il; try reflexivity. discriminate. Qed.

Lemma dget_ok s d d' t : Forall2 (entry_ok s) d d' ->
  match dget String.eqb t d with
  | Some (o, m) => exists ed, dget String.eqb t d' = Some ed /\ ed_e2n ed = m /\ view s o = Some (ed_index ed)
  | None => dget String.eqb t d' = None
  end.
Proof.
  intros F. induction F as [|[t1 [o m]] [t2 ed] d d' (A & B & C) F IH]; [reflexivity|]. cbn [fst snd] in *. subst t2. cbn [dget].
  destruct (String.eqb t t1); [exists ed; auto|exact IH].
Qed.
Lemma dset_ok s d d' t o m ed : Forall2 (entry_ok s) d d' -> ed_e2n ed = m -> view s o = Some (ed_index ed) ->
  Forall2 (entry_ok s) (dset String.eqb t (o, m) d) (dset String.eqb t ed d').
Proof.
  intros F Hm Hv. induction F as [|[t1 [o1 m1]] [t2 ed1] d d' (A & B & C) F IH]; [repeat constructor; assumption|]. cbn [fst snd] in *. subst t2. cbn [dset].
  destruct (String.eqb t t1); constructor; try assumption; repeat split; assumption.
Qed.
Lemma in_dset_entry (d : dict string (loc * mat)) t x t' y : NoDup (dkeys d) -> In (t', y) (dset String.eqb t x d) -> (t' = t /\ y = x) \/ (t' <> t /\ In (t', y) d).
Proof.
  intros Hnd H. destruct (string_dec t' t) as [->|N].
  - left. split; [reflexivity|]. apply (in_dget _ seqb_eq) in H; [|apply (dset_NoDup _ seqb_eq); exact Hnd]. rewrite (dget_dset_eq _ seqb_eq) in H. congruence.
  - right. split; [exact N|]. apply (in_dget _ seqb_eq) in H; [|apply (dset_NoDup _ seqb_eq); exact Hnd]. rewrite (dget_dset_neq _ seqb_eq) in H by exact N.
    apply (dget_in _ seqb_eq). exact H.
Qed.

(** The second part of [add_elems], with the index list [ind] that only the given variables refer to. *)
Definition hadd2 (s1 : mem) (c ind : loc) (n : Z) (d : dict string (loc * mat)) (etype : string) (m : mat) : mem * res hval :=
  let dim := m_nrow m in
  let s2 := set_conns s1 (upd_nat (conns s1) c (n + dim, d)) in
  match dget String.eqb etype d with
  | Some (o, m0) =>
      try s2 (obj_list s2 ind) (fun l' =>
        try s2 (obj_list s2 o) (fun l0 =>
          let '(s3, l) := new_list s2 (l0 ++ l') in
          let s4 := put_obj s3 o (RList l) in
          try s4 (np_vcat m0 m) (fun m' =>
            (set_conns s4 (upd_nat (conns s4) c (n + dim, dset String.eqb etype (o, m') d)), Ok VNone))))
  | None => (set_conns s2 (upd_nat (conns s2) c (n + dim, dset String.eqb etype (ind, m) d)), Ok VNone)
  end.
Lemma upd_nat_twice {A} (l : list A) n a b : upd_nat (upd_nat l n a) n b = upd_nat l n b.
Proof. revert n. induction l as [|x l IH]; intros [|n]; cbn; try reflexivity. f_equal. apply IH. Qed.

Lemma inv_hadd2 E G (G' : var -> Prop) s ps cx lc ind il n d d' t m s' r : inv E G s ps ->
  nth_error (vars s) cx = Some (VConn lc) -> nth_error (conns s) lc = Some (n, d) -> Forall2 (entry_ok s) d d' -> (forall x, G x -> G' x) ->
  view s ind = Some il -> (forall c t', ~ entry s c t' ind) -> (forall x, nth_error (vars s) x = Some (VObj ind) -> G' x) ->
  hadd2 s lc ind n d t m = (s', Ok r) ->
  exists ec', ec_add (EC n d') t m (Some il) = Ok ec' /\ r = VNone /\ inv E G' s' (upd_nat ps cx (PConn ec')).
Proof.
  intros I Hcx Hlc Hok HG Hind Hno Hgiven H. unfold hadd2 in H. assert (Hd := dget_ok s d d' t Hok).
  assert (Hnd : NoDup (dkeys d)) by exact (i_keys _ _ _ _ I _ _ _ Hlc).
  assert (Lind : (ind < List.length (objs s))%nat). { unfold view in Hind. destruct (nth_error (objs s) ind) eqn:Eo; [|discriminate]. eapply nth_some_lt. exact Eo. }
  unfold ec_add. cbn [ec_nelem ec_dict]. destruct (dget String.eqb t d) as [[o m0]|] eqn:Et.
  - destruct Hd as (ed & Ed & Em0 & Ev). rewrite Ed. set (s2 := set_conns s _) in H.
    destruct (obj_list_view s ind il Hind) as (B1 & L1). destruct (obj_list_view s o _ Ev) as (B2 & L2).
    change (obj_list s2 ind) with (obj_list s ind) in H. change (obj_list s2 o) with (obj_list s o) in H. rewrite L1, L2 in H.
    destruct (il_list il) as [l'|e] eqn:El'; [|discriminate]. cbn [try] in H. destruct (il_list (ed_index ed)) as [l0|e] eqn:El0; [|discriminate]. cbn [try] in H.
    unfold new_list in H. rewrite Em0. destruct (np_vcat m0 m) as [m'|e] eqn:Em; [|discriminate]. cbn [try] in H. injection H as <- <-.
    unfold il_append_il. rewrite (il_entries_list il B1), (il_entries_list _ B2), El', El0. cbn [bind]. rewrite B1, B2. cbn [bind]. eexists. split; [reflexivity|]. split; [reflexivity|].
    cbn [set_conns put_obj set_objs set_lists conns objs lists vars s2]. rewrite upd_nat_twice.
    assert (I1 := inv_new_list E G s ps (l0 ++ l') I). unfold new_list in I1. cbn [fst] in I1.
    assert (Hent : entry s lc t o) by (exists n, d, m0; split; [exact Hlc|apply (dget_in _ seqb_eq); exact Et]).
    assert (Lo : (o < List.length (objs s))%nat) by exact (i_entb _ _ _ _ I _ _ _ Hent).
    set (s1 := set_lists s (lists s ++ [l0 ++ l'])) in *.
    assert (Hnew : forall x, nth_error (vars s) x <> Some (VList (List.length (lists s)))).
    { intros x X. destruct (i_list _ _ _ _ I x _ X) as (w & A & _). apply nth_some_lt in A. lia. }
    apply (inv_conn E G G' s1 ps cx lc n d (n + m_nrow m) (dset String.eqb t (o, m') d) (dset String.eqb t {| ed_index := ILlist (l0 ++ l'); ed_e2n := m' |} d')
             (upd_nat (objs s) o (RList (List.length (lists s)))) I1 Hcx Hlc HG).
    + cbn. apply upd_nat_length.
    + intros o' N. cbn. apply nth_upd_other. intros ->. apply N. exists t. exact Hent.
    + intros o' r l H1 H2. cbn [lists s1 set_lists objs vars]. destruct (Nat.eq_dec o' o) as [->|N].
      * rewrite nth_upd_same in H1 by exact Lo. injection H1 as <-. destruct H2 as [H2|H2]; [discriminate|]. injection H2 as <-. split; [rewrite app_length; cbn; lia|right; exact Hnew].
      * rewrite nth_upd_other in H1 by exact N. split; [exact (i_locs _ _ _ _ I1 o' r l H1 H2)|left; exact H1].
    + (* entries *)
      assert (Hv : forall o', o' <> o -> view (Mem (lists s1) (upd_nat (objs s) o (RList (List.length (lists s)))) (upd_nat (conns s1) lc (n + m_nrow m, dset String.eqb t (o, m') d)) (vars s1)) o' = view s o').
      { intros o' N. unfold view. cbn [objs lists s1 set_lists]. rewrite nth_upd_other by exact N. destruct (nth_error (objs s) o') as [r|] eqn:Eo; [|reflexivity].
        apply view_rep_ext. intros l Hl. apply nth_app1. exact (i_locs _ _ _ _ I o' r l Eo Hl). }
      assert (Hvo : view (Mem (lists s1) (upd_nat (objs s) o (RList (List.length (lists s)))) (upd_nat (conns s1) lc (n + m_nrow m, dset String.eqb t (o, m') d)) (vars s1)) o = Some (ILlist (l0 ++ l'))).
      { unfold view. cbn [objs lists s1 set_lists]. rewrite nth_upd_same by exact Lo. cbn [view_rep]. rewrite nth_new. reflexivity. }
      set (s' := Mem _ _ _ _) in *.
      assert (Hdok : forall d1 d1', Forall2 (entry_ok s) d1 d1' -> NoDup (dkeys d1) -> (forall t1 o1 m1, In (t1, (o1, m1)) d1 -> t1 = t \/ o1 <> o) ->
                Forall2 (entry_ok s') (dset String.eqb t (o, m') d1) (dset String.eqb t {| ed_index := ILlist (l0 ++ l'); ed_e2n := m' |} d1')).
      { intros d1 d1' F. induction F as [|[t1 [o1 m1]] [t2 ed1] d1 d1' (A & B & C) F IH]; intros ND U; [repeat constructor; assumption|]. cbn [fst snd] in *. subst t2. cbn [dset].
        change (NoDup (t1 :: dkeys d1)) in ND. apply NoDup_cons_iff in ND. destruct ND as (N1 & N2). destruct (String.eqb_spec t t1) as [<-|Nt].
        - constructor; [repeat split; assumption|]. eapply entry_ok_ext; [|exact F]. intros t3 o3 m3 Hin. apply Hv. destruct (U t3 o3 m3 (or_intror Hin)) as [-> | X]; [|exact X].
          exfalso. apply N1. apply (in_map fst) in Hin. exact Hin.
        - constructor.
          + split; [reflexivity|]. split; [exact B|]. cbn [fst snd]. rewrite Hv; [exact C|]. destruct (U t1 o1 m1 (or_introl eq_refl)) as [X|X]; [congruence|exact X].
          + apply IH; [exact N2|]. intros t3 o3 m3 Hin. apply (U t3 o3 m3). right. exact Hin. }
      apply Hdok; [exact Hok|exact Hnd|]. intros t1 o1 m1 Hin. destruct (Nat.eq_dec o1 o) as [->|N]; [left|right; exact N].
      apply (i_entinj _ _ _ _ I lc t1 lc t o); [exists n, d, m1; auto|exact Hent].
    + apply (dset_NoDup _ seqb_eq). exact Hnd.
    + intros t1 o1 m1 Hin. left. apply (in_dset_entry d t (o, m') t1 (o1, m1) Hnd) in Hin. destruct Hin as [(-> & X)|(_ & X)].
      * injection X as -> _. exact Hent.
      * exists n, d, m1. auto.
  - rewrite Hd. injection H as <- <-. eexists. split; [reflexivity|]. split; [reflexivity|].
    cbn [set_conns conns objs lists vars]. rewrite upd_nat_twice.
    apply (inv_conn E G G' s ps cx lc n d (n + m_nrow m) (dset String.eqb t (ind, m) d) (dset String.eqb t {| ed_index := il; ed_e2n := m |} d') (objs s) I Hcx Hlc HG).
    + reflexivity.
    + reflexivity.
    + intros o r l H1 H2. split; [exact (i_locs _ _ _ _ I o r l H1 H2)|left; exact H1].
    + apply (dset_ok (Mem (lists s) (objs s) (upd_nat (conns s) lc (n + m_nrow m, dset String.eqb t (ind, m) d)) (vars s))); [exact Hok|reflexivity|exact Hind].
    + apply (dset_NoDup _ seqb_eq). exact Hnd.
    + intros t1 o1 m1 Hin. apply (in_dset_entry d t (ind, m) t1 (o1, m1) Hnd) in Hin. destruct Hin as [(-> & X)|(_ & X)].
      * injection X as -> ->. right. split; [exact Lind|]. split; [exact Hno|]. split; [exact Hgiven|].
        intros t' m' Hin. apply (in_dset_entry d t (ind, m) t' (ind, m') Hnd) in Hin. destruct Hin as [(-> & _)|(_ & X)]; [reflexivity|].
        exfalso. apply (Hno lc t'). exists n, d, m'. auto.
      * left. exists n, d, m1. auto.
Qed.

(** ** Variables *)
Lemma find_some {A} (l : list A) n v : nth_error l n = Some v -> find l n = Ok v.
Proof. intros H. unfold find. rewrite H. reflexivity. Qed.
Lemma rd_list E G s ps x : inv E G s ps ->
  (exists l w, nth_error (vars s) x = Some (VList l) /\ nth_error (lists s) l = Some w /\ var_list s x = Ok l /\ pvar_list ps x = Ok w) \/
  (var_list s x = Err NameError /\ pvar_list ps x = Err NameError).
Proof.
  intros I. unfold var_list, pvar_list, find. destruct (nth_error (vars s) x) as [v|] eqn:Ex.
  - destruct v as [|l|o|c].
    + right. rewrite (i_none _ _ _ _ I x Ex). auto.
    + left. destruct (i_list _ _ _ _ I x l Ex) as (w & A & B). rewrite B. exists l, w. auto.
    + right. destruct (i_obj _ _ _ _ I x o Ex) as (il & A & _). rewrite A. auto.
    + right. destruct (i_conn _ _ _ _ I x c Ex) as (n & d & d' & _ & A & _). rewrite A. auto.
  - right. apply nth_error_None in Ex. rewrite (i_len _ _ _ _ I) in Ex. apply nth_error_None in Ex. rewrite Ex. auto.
Qed.
Lemma rd_obj E G s ps x : inv E G s ps -> ~ G x ->
  (exists o r il, nth_error (vars s) x = Some (VObj o) /\ nth_error (objs s) o = Some r /\ view_rep (lists s) r = Some il /\ view s o = Some il /\ var_obj s x = Ok o /\ pvar_idx ps x = Ok il) \/
  (var_obj s x = Err NameError /\ pvar_idx ps x = Err NameError).
Proof.
  intros I N. unfold var_obj, pvar_idx, find. destruct (nth_error (vars s) x) as [v|] eqn:Ex.
  - destruct v as [|l|o|c].
    + right. rewrite (i_none _ _ _ _ I x Ex). auto.
    + right. destruct (i_list _ _ _ _ I x l Ex) as (w & A & B). rewrite B. auto.
    + left. destruct (i_obj _ _ _ _ I x o Ex) as (il & A & B). specialize (B N). rewrite A. assert (C := B). unfold view in C.
      destruct (nth_error (objs s) o) as [r|] eqn:Eo; [|discriminate]. exists o, r, il. repeat split; try assumption.
    + right. destruct (i_conn _ _ _ _ I x c Ex) as (n & d & d' & _ & A & _). rewrite A. auto.
  - right. apply nth_error_None in Ex. rewrite (i_len _ _ _ _ I) in Ex. apply nth_error_None in Ex. rewrite Ex. auto.
Qed.
Lemma rd_conn E G s ps x : inv E G s ps ->
  (exists c n d d', nth_error (vars s) x = Some (VConn c) /\ nth_error (conns s) c = Some (n, d) /\ Forall2 (entry_ok s) d d' /\ var_conn s x = Ok c /\ pvar_conn ps x = Ok (EC n d')) \/
  (var_conn s x = Err NameError /\ pvar_conn ps x = Err NameError).
Proof.
  intros I. unfold var_conn, pvar_conn, find. destruct (nth_error (vars s) x) as [v|] eqn:Ex.
  - destruct v as [|l|o|c].
    + right. rewrite (i_none _ _ _ _ I x Ex). auto.
    + right. destruct (i_list _ _ _ _ I x l Ex) as (w & A & B). rewrite B. auto.
    + right. destruct (i_obj _ _ _ _ I x o Ex) as (il & A & _). rewrite A. auto.
    + left. destruct (i_conn _ _ _ _ I x c Ex) as (n & d & d' & A & B & C). rewrite B. exists c, n, d, d'. auto.
  - right. apply nth_error_None in Ex. rewrite (i_len _ _ _ _ I) in Ex. apply nth_error_None in Ex. rewrite Ex. auto.
Qed.

(** What the new variable has to be. *)
Definition pushable (E : var -> Prop) (s : mem) (v : hval) (pv : pval) : Prop :=
  match v, pv with
  | VNone, PNone => True
  | VList l, PList w => nth_error (lists s) l = Some w /\
      (~ E (List.length (vars s)) -> (forall o r, nth_error (objs s) o = Some r -> ~ in_rep r l)) /\
      (forall y, nth_error (vars s) y = Some (VList l) -> ~ ~ E y) /\
      (~ E (List.length (vars s)) -> forall y, nth_error (vars s) y <> Some (VList l))
  | VObj o, PIdx il => view s o = Some il /\ (forall y, nth_error (vars s) y <> Some (VObj o)) /\ (forall c t, ~ entry s c t o)
  | VConn c, PConn (EC n d') => exists d, nth_error (conns s) c = Some (n, d) /\ Forall2 (entry_ok s) d d' /\ (forall y, nth_error (vars s) y <> Some (VConn c))
  | _, _ => False
  end.
Definition good (E G : var -> Prop) (a : mem * res hval) (b : list pval * res pval) : Prop :=
  inv E G (fst a) (fst b) /\ match snd a, snd b with Ok v, Ok pv => pushable E (fst a) v pv | Err e, Err e' => e = e' | _, _ => False end.

Lemma good_err E G s ps e : inv E G s ps -> good E G (s, Err e) (ps, Err e).
Proof. intros I. split; [exact I|reflexivity]. Qed.
Lemma good_none E G s ps : inv E G s ps -> good E G (s, Ok VNone) (ps, Ok PNone).
Proof. intros I. split; [exact I|exact Coq.Init.Logic.I]. Qed.

(** A new list. *)
Lemma good_list E G s ps v : inv E G s ps -> good E G (let '(s', l) := new_list s v in (s', Ok (VList l))) (ps, Ok (PList v)).
Proof.
  intros I. assert (I' := inv_new_list E G s ps v I). unfold new_list in *. cbn [fst] in I'. split; [exact I'|]. cbn [fst snd pushable].
  assert (N1 : forall x, nth_error (vars s) x <> Some (VList (List.length (lists s)))).
  { intros x X. destruct (i_list _ _ _ _ I x _ X) as (w & A & _). apply nth_some_lt in A. lia. }
  split; [cbn; apply nth_new|]. split; [|split].
  - intros _ o r Ho Hr. cbn in Ho. assert (X := i_locs _ _ _ _ I o r _ Ho Hr). lia.
  - intros y Hy. destruct (N1 y Hy).
  - intros _ y Hy. exact (N1 y Hy).
Qed.

(** A new index list. *)
Lemma good_obj E G s ps r il : inv E G s ps -> view_rep (lists s) r = Some il -> (forall l x, in_rep r l -> nth_error (vars s) x = Some (VList l) -> ~ ~ E x) ->
  good E G (let '(s', o) := new_obj s r in (s', Ok (VObj o))) (ps, Ok (PIdx il)).
Proof.
  intros I Hr Hs. assert (Hb : forall l, in_rep r l -> (l < List.length (lists s))%nat).
  { intros l Hl. destruct Hl as [-> | ->]; cbn in Hr; destruct (nth_error (lists s) l) eqn:El; try discriminate; eapply nth_some_lt; exact El. }
  assert (I' := inv_new_obj E G s ps r I Hb Hs). unfold new_obj in *. cbn [fst] in I'. split; [exact I'|]. cbn [fst snd pushable]. split; [|split].
  - unfold view. cbn. rewrite nth_new. exact Hr.
  - intros y Hy. assert (X := i_objb _ _ _ _ I y _ Hy). lia.
  - intros c t He. assert (X := i_entb _ _ _ _ I c t _ He). lia.
Qed.
Lemma fresh_unseen E G s ps v : inv E G s ps -> forall l x, l = List.length (lists s) -> nth_error (vars (fst (new_list s v))) x = Some (VList l) -> ~ ~ E x.
Proof.
  intros I l x -> H. cbn in H. destruct (i_list _ _ _ _ I x _ H) as (w & A & _). apply nth_some_lt in A. lia.
Qed.
Lemma good_ret_range E G s ps a b : inv E G s ps -> good E G (ret_range s [a; b]) (ps, Ok (PIdx (ILrange a b))).
Proof.
  intros I. unfold ret_range. cbn [new_list]. apply (good_obj E G (fst (new_list s [a; b])) ps (RRange (List.length (lists s)))).
  - apply inv_new_list. exact I.
  - cbn. rewrite nth_new. reflexivity.
  - intros l x [H|H]; [injection H as <-|discriminate]. eapply fresh_unseen; [exact I|reflexivity].
Qed.
Lemma good_ret_list E G s ps v : inv E G s ps -> good E G (ret_list s v) (ps, Ok (PIdx (ILlist v))).
Proof.
  intros I. unfold ret_list. cbn [new_list]. apply (good_obj E G (fst (new_list s v)) ps (RList (List.length (lists s)))).
  - apply inv_new_list. exact I.
  - cbn. rewrite nth_new. reflexivity.
  - intros l x [H|H]; [discriminate|injection H as <-]. eapply fresh_unseen; [exact I|reflexivity].
Qed.
(** A new list for the index list of a variable. *)
Lemma good_put E G s ps y o v (rg : bool) il : inv E G s ps -> nth_error (vars s) y = Some (VObj o) -> ~ G y ->
  view_rep [v] (if rg then RRange 0%nat else RList 0%nat) = Some il ->
  good E G (let '(s', l') := new_list s v in (put_obj s' o (if rg then RRange l' else RList l'), Ok VNone)) (upd_nat ps y (PIdx il), Ok PNone).
Proof.
  intros I Hy N Hv. assert (I' := inv_new_list E G s ps v I). cbn [new_list]. apply good_none. unfold new_list in I'. cbn [fst] in I'.
  apply (inv_put_obj E G _ ps y o _ il I' Hy N).
  - destruct rg; cbn in *; rewrite nth_new; exact Hv.
  - intros l x H Hx. assert (Hl : l = List.length (lists s)) by (destruct rg; destruct H as [H|H]; congruence). eapply (fresh_unseen E G s ps v I); eassumption.
Qed.

Lemma view_range ls r a b : view_rep ls r = Some (ILrange a b) -> exists l, r = RRange l /\ nth_error ls l = Some [a; b].
Proof.
  destruct r as [|l|l]; cbn; try discriminate.
  - destruct (nth_error ls l) as [[|x [|y [|? ?]]]|] eqn:El; try discriminate. intros H. injection H as -> ->. exists l. auto.
  - destruct (nth_error ls l); discriminate.
Qed.
Lemma view_list ls r v : view_rep ls r = Some (ILlist v) -> exists l, r = RList l /\ nth_error ls l = Some v.
Proof.
  destruct r as [|l|l]; cbn; try discriminate.
  - destruct (nth_error ls l) as [[|x [|y [|? ?]]]|] eqn:El; discriminate.
  - destruct (nth_error ls l) as [w|] eqn:El; [|discriminate]. intros H. injection H as ->. exists l. auto.
Qed.
Lemma view_none ls r : view_rep ls r = Some ILnone -> r = RNone.
Proof.
  destruct r as [|l|l]; cbn; try reflexivity.
  - destruct (nth_error ls l) as [[|x [|y [|? ?]]]|]; discriminate.
  - destruct (nth_error ls l); discriminate.
Qed.
Lemma view_boxed ls r v : view_rep ls r <> Some (ILboxed v).
Proof.
  destruct r as [|l|l]; cbn; try discriminate.
  - destruct (nth_error ls l) as [[|x [|y [|? ?]]]|]; discriminate.
  - destruct (nth_error ls l); discriminate.
Qed.

(** ** One command *)
Lemma range_of_pair v : (exists a b, v = [a; b]) \/ (range_of v = Err IndexError /\ prange v = Err IndexError).
Proof. destruct v as [|a [|b [|c v]]]; cbn; auto. left. eauto. Qed.

Definition is_add (k : cmd) : Prop := exists c t m i, k = CAddElems c t m i.
Lemma step_good (E E' G G' : var -> Prop) s ps k : inv E G s ps -> (forall x, E x -> E' x) -> (forall x, G x -> G' x) ->
  (forall x, keeps_list k x -> E' x) -> ((exists y, k = CRange y) -> E' (List.length (vars s))) -> (forall x, gives k x -> G' x) ->
  (forall x v, k = CMut x v -> ~ E x) -> (forall x, In x (uses k) -> ~ G x) -> (is_add k -> exists v, snd (step s k) = Ok v) ->
  good E' G' (step s k) (pstep ps k).
Proof.
  intros I0 HE HG HK HR HGv HM HU HA. assert (I : inv E' G s ps) by (eapply inv_mono; [exact HE| |exact I0]; auto).
  assert (Gd : forall a b, good E' G a b -> good E' G' a b).
  { intros a b (A & B). split; [|exact B]. eapply inv_mono; [| |exact A]; auto. }
  destruct k as [v|x v| |x|x|y x|y x|y|y|y x|y i|y z|y| |c t m i]; cbn [step pstep uses In] in *.
  - (* new list *) apply Gd, good_list. exact I.
  - (* change *)
    destruct (rd_list _ _ _ _ x I0) as [(l & w & Hx & Hl & -> & Hp)|(-> & ->)]; [|apply Gd, good_err; exact I]. rewrite Hp. cbn [try bind pset].
    apply Gd, good_none. eapply inv_mono; [exact HE| |apply (inv_mut E G s ps x l v I0 Hx (HM x v eq_refl))]. auto.
  - (* indexlist() *) apply Gd, (good_obj E' G s ps RNone ILnone I); [reflexivity|]. intros l x [H|H]; discriminate.
  - (* indexlist(irange=x) *)
    destruct (rd_list _ _ _ _ x I) as [(l & w & Hx & Hl & -> & Hp)|(-> & ->)]; [|apply Gd, good_err; exact I]. rewrite Hp. cbn [bind]. rewrite (find_some _ _ _ Hl). cbn [bind].
    destruct (range_of_pair w) as [(a & b & ->)|(-> & ->)]; [|apply Gd, good_err; exact I]. cbn [range_of prange bind try]. apply Gd. apply good_ret_range. exact I.
  - (* indexlist(ilist=x) *)
    destruct (rd_list _ _ _ _ x I) as [(l & w & Hx & Hl & -> & Hp)|(-> & ->)]; [|apply Gd, good_err; exact I]. rewrite Hp. cbn [bind try].
    apply Gd, (good_obj E' G s ps (RList l) (ILlist w) I); [cbn; rewrite Hl; reflexivity|]. intros l' z [H|H] Hz; [discriminate|]. injection H as <-.
    intros N. destruct (i_sep _ _ _ _ I z l Hz N) as (_ & U). rewrite (U x Hx) in HK. apply N. apply HK. left. reflexivity.
  - (* set_range *)
    destruct (rd_obj _ _ _ _ y I (HU y (or_introl eq_refl))) as [(o & r & il & Hy & Ho & Hr & Hv & -> & Hp)|(-> & ->)]; [|apply Gd, good_err; exact I]. rewrite Hp. cbn [bind].
    destruct (rd_list _ _ _ _ x I) as [(l & w & Hx & Hl & -> & Hp')|(-> & ->)]; [|apply Gd, good_err; exact I]. rewrite Hp'. cbn [bind]. rewrite (find_some _ _ _ Hl). cbn [bind].
    destruct (range_of_pair w) as [(a & b & ->)|(-> & ->)]; [|apply Gd, good_err; exact I]. cbn [range_of prange bind try pset].
    apply Gd, (good_put E' G s ps y o [a; b] true (ILrange a b) I Hy (HU y (or_introl eq_refl))). reflexivity.
  - (* set_list *)
    destruct (rd_obj _ _ _ _ y I (HU y (or_introl eq_refl))) as [(o & r & il & Hy & Ho & Hr & Hv & -> & Hp)|(-> & ->)]; [|apply Gd, good_err; exact I]. rewrite Hp. cbn [bind].
    destruct (rd_list _ _ _ _ x I) as [(l & w & Hx & Hl & -> & Hp')|(-> & ->)]; [|apply Gd, good_err; exact I]. rewrite Hp'. cbn [bind try pset].
    apply Gd, good_none. apply (inv_put_obj E' G s ps y o (RList l) (ILlist w) I Hy (HU y (or_introl eq_refl))); [cbn; rewrite Hl; reflexivity|].
    intros l' z [H|H] Hz; [discriminate|]. injection H as <-. intros N. destruct (i_sep _ _ _ _ I z l Hz N) as (_ & U). rewrite (U x Hx) in HK. apply N. apply HK. right. exists y. reflexivity.
  - (* list() *)
    destruct (rd_obj _ _ _ _ y I (HU y (or_introl eq_refl))) as [(o & r & il & Hy & Ho & Hr & Hv & -> & Hp)|(-> & ->)]; [|apply Gd, good_err; exact I]. rewrite Hp. cbn [bind].
    destruct (obj_list_view s o il Hv) as (_ & ->). destruct (il_list il) as [v|e]; [|apply Gd, good_err; exact I]. cbn [try bind pret]. apply Gd, good_list. exact I.
  - (* range() *)
    destruct (rd_obj _ _ _ _ y I (HU y (or_introl eq_refl))) as [(o & r & il & Hy & Ho & Hr & Hv & -> & Hp)|(-> & ->)]; [|apply Gd, good_err; exact I]. rewrite Hp. cbn [bind].
    rewrite (find_some _ _ _ Ho). cbn [bind]. destruct il as [|a b|v|v].
    + rewrite (view_none _ _ Hr). apply Gd, good_err. exact I.
    + destruct (view_range _ _ _ _ Hr) as (l & -> & Hl). cbn [try il_range bind pret]. apply Gd. split; [exact I|]. cbn [fst snd pushable].
      assert (En := HR (ex_intro _ y eq_refl)). split; [exact Hl|]. split; [intros N; destruct (N En)|]. split; [|intros N; destruct (N En)].
      intros z Hz N. destruct (i_sep _ _ _ _ I z l Hz N) as (A & _). exact (A o (RRange l) Ho (or_introl eq_refl)).
    + destruct (view_list _ _ _ Hr) as (l & -> & Hl). apply Gd, good_err. exact I.
    + destruct (view_boxed _ _ _ Hr).
  - (* append *)
    destruct (rd_obj _ _ _ _ y I (HU y (or_introl eq_refl))) as [(o & r & il & Hy & Ho & Hr & Hv & -> & Hp)|(-> & ->)]; [|apply Gd, good_err; exact I]. rewrite Hp. cbn [bind].
    destruct (rd_list _ _ _ _ x I) as [(l & w & Hx & Hl & -> & Hp')|(-> & ->)]; [|apply Gd, good_err; exact I]. rewrite Hp'. cbn [bind].
    destruct (obj_list_view s o il Hv) as (B & ->). assert (Ha : il_append il w = (v <- il_list il ;; Ok (ILlist (v ++ w)))) by (destruct il; try reflexivity; discriminate).
    rewrite Ha. destruct (il_list il) as [v|e]; [|apply Gd, good_err; exact I]. cbn [bind]. rewrite (find_some _ _ _ Hl). cbn [bind try pset].
    apply Gd, (good_put E' G s ps y o (v ++ w) false (ILlist (v ++ w)) I Hy (HU y (or_introl eq_refl))). reflexivity.
  - (* shift *)
    destruct (rd_obj _ _ _ _ y I (HU y (or_introl eq_refl))) as [(o & r & il & Hy & Ho & Hr & Hv & -> & Hp)|(-> & ->)]; [|apply Gd, good_err; exact I]. rewrite Hp. cbn [bind].
    rewrite (find_some _ _ _ Ho). cbn [try]. destruct il as [|a b|v|v].
    + rewrite (view_none _ _ Hr). apply Gd, good_none. exact I.
    + destruct (view_range _ _ _ _ Hr) as (l & -> & Hl). rewrite (find_some _ _ _ Hl). cbn [bind]. change (py_get [a; b] 0) with (@Ok Z a). change (py_get [a; b] 1) with (@Ok Z b). cbn [bind try il_shift pret].
      apply Gd, good_ret_range. exact I.
    + destruct (view_list _ _ _ Hr) as (l & -> & Hl). rewrite (find_some _ _ _ Hl). cbn [bind try il_shift pret]. apply Gd, good_ret_list. exact I.
    + destruct (view_boxed _ _ _ Hr).
  - (* + *)
    destruct (rd_obj _ _ _ _ y I (HU y (or_introl eq_refl))) as [(o & r & il & Hy & Ho & Hr & Hv & -> & Hp)|(-> & ->)]; [|apply Gd, good_err; exact I]. rewrite Hp. cbn [bind].
    destruct (rd_obj _ _ _ _ z I (HU z (or_intror (or_introl eq_refl)))) as [(o' & r' & il' & Hz & Ho' & Hr' & Hv' & -> & Hp')|(-> & ->)]; [|apply Gd, good_err; exact I]. rewrite Hp'. cbn [bind].
    unfold il_add. destruct (obj_list_view s o il Hv) as (_ & ->). destruct (il_list il) as [v|e]; [|apply Gd, good_err; exact I]. cbn [bind].
    destruct (obj_list_view s o' il' Hv') as (_ & ->). destruct (il_list il') as [v'|e]; [|apply Gd, good_err; exact I]. cbn [bind try pret]. apply Gd, good_ret_list. exact I.
  - (* compress *)
    destruct (rd_obj _ _ _ _ y I (HU y (or_introl eq_refl))) as [(o & r & il & Hy & Ho & Hr & Hv & -> & Hp)|(-> & ->)]; [|apply Gd, good_err; exact I]. rewrite Hp. cbn [bind].
    rewrite (find_some _ _ _ Ho). cbn [bind try].
    assert (Same : good E' G (s, Ok VNone) (upd_nat ps y (PIdx il), Ok PNone)).
    { replace (upd_nat ps y (PIdx il)) with ps; [apply good_none; exact I|]. unfold pvar_idx, find in Hp. destruct (nth_error ps y) as [[| |il0|]|] eqn:Ep; try discriminate. injection Hp as ->.
      clear -Ep. revert y Ep. induction ps as [|p ps IH]; intros [|y] Ep; cbn in *; try discriminate; [congruence|]. f_equal. apply IH. exact Ep. }
    destruct il as [|a b|v|v].
    + rewrite (view_none _ _ Hr). apply Gd. exact Same.
    + destruct (view_range _ _ _ _ Hr) as (l & -> & Hl). apply Gd. exact Same.
    + destruct (view_list _ _ _ Hr) as (l & -> & Hl). rewrite (find_some _ _ _ Hl). cbn [bind il_compress]. destruct (py_get v 0) as [first|e] eqn:Ef; [|apply Gd, good_err; exact I]. cbn [bind].
      assert (Hlast : exists last, py_get v (-1) = Ok last).
      { apply py_get_ok_range in Ef. apply py_get_total. lia. }
      destruct Hlast as (last & ->). cbn [bind try]. destruct (zlist_eqb v (zrange first (first + zlen v))); cbn [bind pset].
      * apply Gd, (good_put E' G s ps y o [first; last] true (ILrange first last) I Hy (HU y (or_introl eq_refl))). reflexivity.
      * apply Gd. exact Same.
    + destruct (view_boxed _ _ _ Hr).
  - (* elem_connectivity() *)
    apply Gd. unfold pret. split; cbn [fst snd].
    + assert (X : forall c n d, nth_error (conns s ++ [(0, [])]) c = Some (n, d) -> nth_error (conns s) c = Some (n, d) \/ d = []).
      { intros c n d H. apply nth_snoc in H. destruct H as [H|(_ & H)]; [auto|]. right. congruence. }
      assert (Y : forall c t o, entry (set_conns s (conns s ++ [(0, [])])) c t o -> entry s c t o).
      { intros c t o (n & d & m & A & B). apply X in A. destruct A as [A| ->]; [exists n, d, m; auto|destruct B]. }
      destruct I. split; try assumption.
      * intros x c H. destruct (i_conn0 x c H) as (n & d & d' & A & B & C). exists n, d, d'. split; [cbn; rewrite nth_app1 by (eapply nth_some_lt; exact A); exact A|]. split; [exact B|exact C].
      * intros c t o H. apply (i_entb0 c t o). auto.
      * intros c t c' t' o H H'. apply (i_entinj0 c t c' t' o); auto.
      * intros x c t o H H'. apply (i_own0 x c t o H). auto.
      * intros c n d H. apply X in H. destruct H as [H| ->]; [eauto|constructor].
    + exists []. split; [cbn; apply nth_new|]. split; [constructor|]. intros y Hy. cbn in Hy. destruct (i_conn _ _ _ _ I y _ Hy) as (n & d & d' & A & _). apply nth_some_lt in A. lia.
  - (* add_elems *)
    assert (HA' := HA (ex_intro _ c (ex_intro _ t (ex_intro _ m (ex_intro _ i eq_refl))))). clear HA. destruct HA' as (v & HA).
    destruct (rd_conn _ _ _ _ c I) as [(lc & n & d & d' & Hc & Hlc & Hok & Hvc & Hp)|(Hvc & Hp)]; rewrite Hvc in *; [|discriminate]. rewrite Hp. cbn [bind] in *.
    assert (Hi : exists s1 ind il, (match i with None => Ok None | Some y => il <- pvar_idx ps y ;; Ok (Some il) end = Ok (match i with None => None | Some _ => Some il end)) /\
       (match i with None => il = ILrange n (n + m_nrow m - 1) | Some _ => True end) /\
       inv E' G s1 ps /\ nth_error (vars s1) c = Some (VConn lc) /\ nth_error (conns s1) lc = Some (n, d) /\ Forall2 (entry_ok s1) d d' /\
       view s1 ind = Some il /\ (forall c' t', ~ entry s1 c' t' ind) /\ (forall x, nth_error (vars s1) x = Some (VObj ind) -> G' x) /\
       try s (lc <- Ok lc ;; oi <- match i with None => Ok None | Some y => o <- var_obj s y ;; Ok (Some o) end ;; Ok (lc, oi)) (fun '(lc, oi) => hadd s lc t m oi) = hadd2 s1 lc ind n d t m).
    { destruct i as [y|].
      - destruct (rd_obj _ _ _ _ y I (HU y (or_intror (or_introl eq_refl)))) as [(o & r & il & Hy & Ho & Hr & Hv & Hvo & Hpo)|(Hvo & Hpo)]; rewrite Hvo in *; [|discriminate].
        exists s, o, il. rewrite Hpo. cbn [bind]. split; [reflexivity|]. split; [exact Coq.Init.Logic.I|]. split; [exact I|]. split; [exact Hc|]. split; [exact Hlc|]. split; [exact Hok|]. split; [exact Hv|].
        split; [intros c' t' X; exact (HU y (or_intror (or_introl eq_refl)) (i_own _ _ _ _ I y c' t' o Hy X))|]. split.
        + intros x Hx. rewrite (i_inj _ _ _ _ I x y o Hx Hy). apply HGv. exists c, t, m. reflexivity.
        + cbn [try]. unfold hadd. rewrite (find_some _ _ _ Hlc). reflexivity.
      - destruct (good_ret_range E' G s ps n (n + m_nrow m - 1) I) as (I1 & P). cbn [ret_range new_list new_obj fst snd] in I1, P. cbn [pushable] in P. destruct P as (P1 & P2 & P3).
        eexists _, _, (ILrange n (n + m_nrow m - 1)). split; [reflexivity|]. split; [reflexivity|]. split; [exact I1|]. split; [exact Hc|]. split; [exact Hlc|].
        split. { eapply entry_ok_ext; [|exact Hok]. intros t0 o0 m0 Hin. unfold view. cbn [objs lists set_objs set_lists].
                 assert (Lo : (o0 < List.length (objs s))%nat) by (apply (i_entb _ _ _ _ I lc t0); exists n, d, m0; auto). rewrite nth_app1 by exact Lo.
                 destruct (nth_error (objs s) o0) as [r0|] eqn:Eo; [|reflexivity]. apply view_rep_ext. intros l Hl. apply nth_app1. exact (i_locs _ _ _ _ I o0 r0 l Eo Hl). }
        split; [exact P1|]. split; [exact P3|]. split; [intros x X; destruct (P2 x X)|].
        cbn [bind try]. unfold hadd. rewrite (find_some _ _ _ Hlc). reflexivity. }
    destruct Hi as (s1 & ind & il & Hpi & Hil & I1 & Hc1 & Hlc1 & Hok1 & Hv1 & Hn1 & Hg1 & Heq). cbn [bind] in Heq. rewrite Heq in *. rewrite Hpi. cbn [bind].
    destruct (hadd2 s1 lc ind n d t m) as [s' r'] eqn:Eh. cbn [snd] in HA. subst r'.
    destruct (inv_hadd2 E' G G' s1 ps c lc ind il n d d' t m s' v I1 Hc1 Hlc1 Hok1 HG Hv1 Hn1 Hg1 Eh) as (ec' & Hec & -> & I2).
    assert (Hec' : ec_add (EC n d') t m (match i with None => None | Some _ => Some il end) = Ok ec') by (rewrite <- Hec; destruct i; [reflexivity|rewrite Hil; reflexivity]).
    rewrite Hec'. cbn [bind pset]. apply good_none. exact I2.
Qed.

(** ** Programs *)
Lemma exec_push s k : exec s k = (push (fst (step s k)) (match snd (step s k) with Ok v => v | Err _ => VNone end), snd (step s k)).
Proof. unfold exec. destruct (step s k) as [s' r]. reflexivity. Qed.
Lemma run_snoc s p k : run s (p ++ [k]) = (fst (exec (fst (run s p)) k), snd (run s p) ++ [snd (exec (fst (run s p)) k)]).
Proof.
  revert s. induction p as [|k0 p IH]; intros s; cbn [run app fst snd].
  - destruct (exec s k) as [s1 r]. reflexivity.
  - destruct (exec s k0) as [s1 r]. rewrite IH. destruct (run s1 p) as [s2 rs]. reflexivity.
Qed.
Lemma prun_snoc s p k : prun s (p ++ [k]) = (fst (pexec (fst (prun s p)) k), snd (prun s p) ++ [snd (pexec (fst (prun s p)) k)]).
Proof.
  revert s. induction p as [|k0 p IH]; intros s; cbn [prun app fst snd].
  - destruct (pexec s k) as [s1 r]. reflexivity.
  - destruct (pexec s k0) as [s1 r]. rewrite IH. destruct (prun s1 p) as [s2 rs]. reflexivity.
Qed.
Lemma run_app s p q : run s (p ++ q) = (fst (run (fst (run s p)) q), snd (run s p) ++ snd (run (fst (run s p)) q)).
Proof.
  revert s. induction p as [|k0 p IH]; intros s; cbn [run app fst snd].
  - destruct (run s q). reflexivity.
  - destruct (exec s k0) as [s1 r]. rewrite IH. destruct (run s1 p) as [s2 rs]. reflexivity.
Qed.

Ltac cases := repeat match goal with
  | o : option loc |- _ => destruct o; cbn [fst snd vars lists objs conns]
  | |- context [match ?x with _ => _ end] => destruct x; cbn [fst snd vars lists objs conns]; try reflexivity
  end.
Ltac open_step := unfold ret_range, ret_list, hadd, new_list, new_obj, put_obj, set_lists, set_objs, set_conns, try.
Lemma step_vars s k : vars (fst (step s k)) = vars s.
Proof.
  destruct k as [v|x v| |x|x|y x|y x|y|y|y x|y i|y z|y| |c t m [i|]]; cbn [step]; open_step; try reflexivity; cases.
Qed.
Lemma exec_vars s k : exists v, vars (fst (exec s k)) = vars s ++ [v].
Proof. rewrite exec_push. cbn. rewrite step_vars. eexists. reflexivity. Qed.
Lemma run_vars_len p : List.length (vars (after p)) = List.length p.
Proof.
  unfold after. induction p as [|k p IH] using rev_ind; [reflexivity|]. rewrite run_snoc. cbn [fst]. destruct (exec_vars (fst (run mem0 p)) k) as (v & ->). rewrite !app_length. cbn. congruence.
Qed.
Lemma run_out_len s p : List.length (snd (run s p)) = List.length p.
Proof.
  revert s. induction p as [|k p IH]; intros s; [reflexivity|]. cbn [run]. destruct (exec s k) as [s1 r]. specialize (IH s1). destruct (run s1 p). cbn in *. congruence.
Qed.

Definition Eof (p : list cmd) (x : var) : Prop := (exists k, In k p /\ keeps_list k x) \/ exists y, nth_error p x = Some (CRange y).
Definition Gof (p : list cmd) (x : var) : Prop := exists k, In k p /\ gives k x.
Definition adds_done (p : list cmd) : Prop := forall i k, nth_error p i = Some k -> is_add k -> exists v, nth_error (snd (run mem0 p)) i = Some (Ok v).

Lemma disciplined_prefix p k : disciplined (p ++ [k]) -> disciplined p.
Proof.
  intros H i k0 Hi. assert (L := nth_some_lt _ _ _ Hi). destruct (H i k0) as (A & B); [rewrite nth_app1 by exact L; exact Hi|]. split.
  - intros x v Hx. destruct (A x v Hx) as (A1 & A2). split.
    + intros j k' Hj Hk. apply (A1 j k' Hj). rewrite nth_app1; [exact Hk|lia].
    + intros y Hy. apply (A2 y). rewrite nth_app1; [exact Hy|]. eapply nth_some_lt. exact Hy.
  - intros x Hx j k' Hj Hk. apply (B x Hx j k' Hj). rewrite nth_app1; [exact Hk|lia].
Qed.
Lemma in_nth {A} (a : A) l : In a l -> exists n, (n < List.length l)%nat /\ nth_error l n = Some a.
Proof. intros H. apply In_nth_error in H. destruct H as (n & H). exists n. split; [eapply nth_some_lt; exact H|exact H]. Qed.

Lemma run_good p : disciplined p -> adds_done p ->
  Forall2 same_outcome (snd (run mem0 p)) (snd (prun [] p)) /\ inv (Eof p) (Gof p) (fst (run mem0 p)) (fst (prun [] p)).
Proof.
  induction p as [|k p IH] using rev_ind; intros D A.
  - split; [constructor|]. apply inv0.
  - assert (Ap : adds_done p).
    { intros i k0 Hi Hk. assert (L := nth_some_lt _ _ _ Hi). destruct (A i k0) as (v & Hv); [rewrite nth_app1 by exact L; exact Hi|exact Hk|].
      rewrite run_snoc in Hv. cbn [snd] in Hv. rewrite nth_app1 in Hv by (rewrite run_out_len; exact L). eauto. }
    destruct (IH (disciplined_prefix p k D) Ap) as (F & I). rewrite run_snoc, prun_snoc. cbn [fst snd].
    assert (Hn : nth_error (p ++ [k]) (List.length p) = Some k) by apply nth_new.
    destruct (D (List.length p) k Hn) as (D1 & D2).
    assert (Hg : good (Eof (p ++ [k])) (Gof (p ++ [k])) (step (fst (run mem0 p)) k) (pstep (fst (prun [] p)) k)).
    { apply (step_good (Eof p) (Eof (p ++ [k])) (Gof p) (Gof (p ++ [k])) _ _ k I).
      - intros x [(k0 & Hin & Hk)|(y & Hy)]; [left; exists k0; split; [apply in_or_app; auto|exact Hk]|].
        right. exists y. rewrite nth_app1; [exact Hy|]. eapply nth_some_lt. exact Hy.
      - intros x (k0 & Hin & Hk). exists k0. split; [apply in_or_app; auto|exact Hk].
      - intros x Hk. left. exists k. split; [apply in_or_app; right; left; reflexivity|exact Hk].
      - intros (y & Hy). right. exists y. change (fst (run mem0 p)) with (after p). rewrite run_vars_len. rewrite <- Hy. exact Hn.
      - intros x Hk. exists k. split; [apply in_or_app; right; left; reflexivity|exact Hk].
      - intros x v Hx [(k0 & Hin & Hk)|(y & Hy)].
        + destruct (in_nth _ _ Hin) as (j & Lj & Hj). destruct (D1 x v Hx) as (B & _). apply (B j k0 Lj); [rewrite nth_app1 by exact Lj; exact Hj|exact Hk].
        + destruct (D1 x v Hx) as (_ & B). apply (B y). rewrite nth_app1; [exact Hy|]. eapply nth_some_lt. exact Hy.
      - intros x Hx (k0 & Hin & Hk). destruct (in_nth _ _ Hin) as (j & Lj & Hj). apply (D2 x Hx j k0 Lj); [rewrite nth_app1 by exact Lj; exact Hj|exact Hk].
      - intros Hk. destruct (A (List.length p) k Hn Hk) as (v & Hv). rewrite run_snoc in Hv. cbn [snd] in Hv.
        rewrite <- (run_out_len mem0 p) in Hv. rewrite nth_new in Hv. rewrite exec_push in Hv. cbn [snd] in Hv. exists v. congruence. }
    destruct Hg as (Ig & Pg). rewrite exec_push. unfold pexec. destruct (step (fst (run mem0 p)) k) as [s' r]. destruct (pstep (fst (prun [] p)) k) as [ps' r']. cbn [fst snd] in *. split.
    + apply Forall2_app; [exact F|]. constructor; [|constructor]. destruct r, r'; cbn in *; try contradiction; auto.
    + apply inv_push; [exact Ig|]. destruct r as [v|e], r' as [pv|e']; try contradiction; [exact Pg|exact Coq.Init.Logic.I].
Qed.

(** ** What a command leaves alone *)
Lemma app1_some {A} (l r : list A) n v : nth_error l n = Some v -> nth_error (l ++ r) n = Some v.
Proof. intros H. rewrite nth_app1; [exact H|]. eapply nth_some_lt. exact H. Qed.
Lemma step_lists s k l w : (forall x v, k <> CMut x v) -> nth_error (lists s) l = Some w -> nth_error (lists (fst (step s k))) l = Some w.
Proof.
  intros N H. destruct k as [v|x v| |x|x|y x|y x|y|y|y x|y i|y z|y| |c t m i]; try (destruct (N x v eq_refl); fail); cbn [step]; open_step; cbn [fst lists];
    repeat match goal with
    | o : option loc |- _ => destruct o; cbn [fst snd vars lists objs conns]
    | |- context [match ?x with _ => _ end] => destruct x; cbn [fst snd vars lists objs conns]
    end; try assumption; try (repeat apply app1_some; assumption).
Qed.
Lemma var_obj_ok s y o : var_obj s y = Ok o -> nth_error (vars s) y = Some (VObj o).
Proof. unfold var_obj, find. destruct (nth_error (vars s) y) as [[| |o'|]|]; cbn; try discriminate. intros H. congruence. Qed.
Lemma var_list_ok s y o : var_list s y = Ok o -> nth_error (vars s) y = Some (VList o).
Proof. unfold var_list, find. destruct (nth_error (vars s) y) as [[|o'| |]|]; cbn; try discriminate. intros H. congruence. Qed.
Lemma var_conn_ok s y o : var_conn s y = Ok o -> nth_error (vars s) y = Some (VConn o).
Proof. unfold var_conn, find. destruct (nth_error (vars s) y) as [[| | |o']|]; cbn; try discriminate. intros H. congruence. Qed.
Lemma find_ok {A} (l : list A) n v : find l n = Ok v -> nth_error l n = Some v.
Proof. unfold find. destruct (nth_error l n); [congruence|discriminate]. Qed.

(** [add_elems] with the index list it uses made explicit. *)
Lemma step_add s c t m i lc n d : nth_error (vars s) c = Some (VConn lc) -> nth_error (conns s) lc = Some (n, d) ->
  step s (CAddElems c t m i) =
  match i with
  | None => hadd2 (set_objs (set_lists s (lists s ++ [[n; n + m_nrow m - 1]])) (objs s ++ [RRange (List.length (lists s))])) lc (List.length (objs s)) n d t m
  | Some y => match var_obj s y with Ok o => hadd2 s lc o n d t m | Err e => (s, Err e) end
  end.
Proof.
  intros Hc Hl. cbn [step]. unfold var_conn. rewrite (find_some _ _ _ Hc). cbn [bind]. destruct i as [y|].
  - destruct (var_obj s y) as [o|e]; [|reflexivity]. cbn [bind try]. unfold hadd. rewrite (find_some _ _ _ Hl). reflexivity.
  - cbn [bind try]. unfold hadd. rewrite (find_some _ _ _ Hl). reflexivity.
Qed.
(** Either the command changes nothing (no such connectivity) or it is the above. *)
Lemma step_add_cases s c t m i : (exists e, step s (CAddElems c t m i) = (s, Err e)) \/
  exists lc n d, nth_error (vars s) c = Some (VConn lc) /\ nth_error (conns s) lc = Some (n, d).
Proof.
  cbn [step]. destruct (var_conn s c) as [lc|e] eqn:Ec; [|left; exists e; reflexivity]. cbn [bind]. apply var_conn_ok in Ec.
  destruct (nth_error (conns s) lc) as [[n d]|] eqn:El; [right; exists lc, n, d; auto|]. left.
  destruct i as [y|]; [destruct (var_obj s y) as [o|e]; [|exists e; reflexivity]|]; cbn [bind try]; unfold hadd, find; rewrite El; exists NameError; reflexivity.
Qed.
(** What [hadd2] changes. *)
Lemma hadd2_objs s lc ind n d t m o : (forall m0, ~ In (t, (o, m0)) d) -> nth_error (objs (fst (hadd2 s lc ind n d t m))) o = nth_error (objs s) o.
Proof.
  intros N. unfold hadd2. destruct (dget String.eqb t d) as [[o' m0]|] eqn:Et; [|reflexivity].
  assert (No : o <> o') by (intros ->; apply (N m0); apply (dget_in _ seqb_eq); exact Et).
  unfold try, new_list. cases; cbn; try reflexivity; apply nth_upd_other; exact No.
Qed.
Lemma step_objs s k o r : nth_error (objs s) o = Some r -> ~ receiver s k o -> nth_error (objs (fst (step s k))) o = Some r.
Proof.
  intros H N.
  assert (Put : forall y o', var_obj s y = Ok o' -> ((exists x, k = CSetRange y x) \/ (exists x, k = CSetList y x) \/ (exists x, k = CAppend y x) \/ k = CCompress y) -> o <> o').
  { intros y o' Hy Hk ->. apply N. left. exists y. split; [apply var_obj_ok; exact Hy|exact Hk]. }
  destruct k as [v|x v| |x|x|y x|y x|y|y|y x|y i|y z|y| |c t m i]; cbn [step].
  1-5, 8, 9, 11, 12, 14: open_step; cases; cbn [fst objs]; try assumption; try (apply app1_some; assumption).
  - (* set_range *)
    destruct (var_obj s y) as [o'|e] eqn:Ey; [|exact H]. assert (No := Put y o' Ey (or_introl (ex_intro _ x eq_refl))). cbn [bind]. destruct (var_list s x) as [l|e]; [|exact H]. cbn [bind].
    destruct (find (lists s) l) as [v|e]; [|exact H]. cbn [bind]. destruct (range_of v) as [v'|e]; [|exact H]. cbn. rewrite nth_upd_other by exact No. exact H.
  - (* set_list *)
    destruct (var_obj s y) as [o'|e] eqn:Ey; [|exact H]. assert (No := Put y o' Ey (or_intror (or_introl (ex_intro _ x eq_refl)))). cbn [bind]. destruct (var_list s x) as [l|e]; [|exact H].
    cbn. rewrite nth_upd_other by exact No. exact H.
  - (* append *)
    destruct (var_obj s y) as [o'|e] eqn:Ey; [|exact H]. assert (No := Put y o' Ey (or_intror (or_intror (or_introl (ex_intro _ x eq_refl))))). cbn [bind]. destruct (var_list s x) as [l|e]; [|exact H]. cbn [bind].
    destruct (obj_list s o') as [v|e]; [|exact H]. cbn [bind]. destruct (find (lists s) l) as [v'|e]; [|exact H]. cbn. rewrite nth_upd_other by exact No. exact H.
  - (* compress *)
    destruct (var_obj s y) as [o'|e] eqn:Ey; [|exact H]. assert (No := Put y o' Ey (or_intror (or_intror (or_intror eq_refl)))). cbn [bind]. destruct (find (objs s) o') as [r'|e]; [|exact H]. cbn [bind try].
    destruct r' as [|l|l]; try exact H. destruct (find (lists s) l) as [v|e]; [|exact H]. cbn [bind]. destruct (py_get v 0) as [a|e]; [|exact H]. cbn [bind].
    destruct (py_get v (-1)) as [b|e]; [|exact H]. cbn [bind try]. destruct (zlist_eqb v (zrange a (a + zlen v))); [|exact H]. cbn. rewrite nth_upd_other by exact No. exact H.
  - (* add_elems *)
    change (nth_error (objs (fst (step s (CAddElems c t m i)))) o = Some r). destruct (step_add_cases s c t m i) as [(e & ->)|(lc & n & d & Hc & Hl)]; [exact H|].
    assert (Nd : forall m0, ~ In (t, (o, m0)) d) by (intros m0 Hin; apply N; right; exists c, t, m, i, lc, n, d, m0; auto).
    rewrite (step_add s c t m i lc n d Hc Hl). destruct i as [y|].
    + destruct (var_obj s y) as [o'|e]; [|exact H]. rewrite hadd2_objs by exact Nd. exact H.
    + rewrite hadd2_objs by exact Nd. cbn. apply app1_some. exact H.
Qed.

(** ** The effect of a command *)
Definition fresh_rep (l : loc) (r : rep) : Prop := r = RRange l \/ r = RList l.
Inductive effect (s : mem) (k : cmd) : mem -> res hval -> Prop :=
| ef_same r : (exists e, r = Err e) \/ (r = Ok VNone /\ exists y i, k = CCompress y \/ k = CShift y i) -> effect s k s r
| ef_list v : (k = CNew v \/ exists y, k = CList y) -> effect s k (set_lists s (lists s ++ [v])) (Ok (VList (List.length (lists s))))
| ef_mut x v l : k = CMut x v -> nth_error (vars s) x = Some (VList l) -> effect s k (set_lists s (upd_nat (lists s) l v)) (Ok VNone)
| ef_obj0 : k = CMake -> effect s k (set_objs s (objs s ++ [RNone])) (Ok (VObj (List.length (objs s))))
| ef_obj v r : fresh_rep (List.length (lists s)) r -> view_rep (lists s ++ [v]) r <> None -> (exists y i, k = CMakeRange y \/ k = CShift y i \/ exists z, k = CAdd y z) ->
    effect s k (Mem (lists s ++ [v]) (objs s ++ [r]) (conns s) (vars s)) (Ok (VObj (List.length (objs s))))
| ef_keep x l : k = CMakeList x -> nth_error (vars s) x = Some (VList l) -> effect s k (set_objs s (objs s ++ [RList l])) (Ok (VObj (List.length (objs s))))
| ef_put y o v r : nth_error (vars s) y = Some (VObj o) -> fresh_rep (List.length (lists s)) r -> view_rep (lists s ++ [v]) r <> None ->
    ((exists x, k = CSetRange y x) \/ (exists x, k = CAppend y x) \/ k = CCompress y) ->
    effect s k (Mem (lists s ++ [v]) (upd_nat (objs s) o r) (conns s) (vars s)) (Ok VNone)
| ef_set y x o l : k = CSetList y x -> nth_error (vars s) y = Some (VObj o) -> nth_error (vars s) x = Some (VList l) -> effect s k (put_obj s o (RList l)) (Ok VNone)
| ef_range y o l : k = CRange y -> nth_error (vars s) y = Some (VObj o) -> nth_error (objs s) o = Some (RRange l) -> effect s k s (Ok (VList l))
| ef_conn : k = CConn -> effect s k (set_conns s (conns s ++ [(0, [])])) (Ok (VConn (List.length (conns s))))
| ef_add c t m y o lc n d : k = CAddElems c t m (Some y) -> nth_error (vars s) c = Some (VConn lc) -> nth_error (conns s) lc = Some (n, d) -> nth_error (vars s) y = Some (VObj o) ->
    effect s k (fst (hadd2 s lc o n d t m)) (snd (hadd2 s lc o n d t m))
| ef_add0 c t m lc n d : k = CAddElems c t m None -> nth_error (vars s) c = Some (VConn lc) -> nth_error (conns s) lc = Some (n, d) ->
    let s1 := Mem (lists s ++ [[n; n + m_nrow m - 1]]) (objs s ++ [RRange (List.length (lists s))]) (conns s) (vars s) in
    effect s k (fst (hadd2 s1 lc (List.length (objs s)) n d t m)) (snd (hadd2 s1 lc (List.length (objs s)) n d t m)).

Ltac same := apply ef_same; first [left; eexists; reflexivity|right; split; [reflexivity|]; (eexists; exists 0; left; reflexivity)||(eexists; eexists; right; reflexivity)].
Lemma step_effect s k : effect s k (fst (step s k)) (snd (step s k)).
Proof.
  destruct k as [v|x v| |x|x|y x|y x|y|y|y x|y i|y z|y| |c t m i]; cbn [step].
  - apply ef_list. left. reflexivity.
  - destruct (var_list s x) as [l|e] eqn:Ex; [|same]. apply (ef_mut s _ x v l eq_refl). apply var_list_ok. exact Ex.
  - apply ef_obj0. reflexivity.
  - destruct (var_list s x) as [l|e] eqn:Ex; [|same]. cbn [bind]. destruct (find (lists s) l) as [v|e]; [|same]. cbn [bind]. destruct (range_of_pair v) as [(a & b & ->)|(-> & _)]; [|same].
    apply (ef_obj s _ [a; b]); [left; reflexivity|cbn; rewrite nth_new; discriminate|exists x, 0; auto].
  - destruct (var_list s x) as [l|e] eqn:Ex; [|same]. apply (ef_keep s _ x l eq_refl). apply var_list_ok. exact Ex.
  - destruct (var_obj s y) as [o|e] eqn:Ey; [|same]. cbn [bind]. destruct (var_list s x) as [l|e] eqn:Ex; [|same]. cbn [bind]. destruct (find (lists s) l) as [v|e]; [|same]. cbn [bind].
    destruct (range_of_pair v) as [(a & b & ->)|(-> & _)]; [|same]. apply (ef_put s _ y o [a; b]); [apply var_obj_ok; exact Ey|left; reflexivity|cbn; rewrite nth_new; discriminate|left; exists x; reflexivity].
  - destruct (var_obj s y) as [o|e] eqn:Ey; [|same]. cbn [bind]. destruct (var_list s x) as [l|e] eqn:Ex; [|same]. apply (ef_set s _ y x o l eq_refl); [apply var_obj_ok; exact Ey|apply var_list_ok; exact Ex].
  - destruct (var_obj s y) as [o|e] eqn:Ey; [|same]. cbn [bind]. destruct (obj_list s o) as [v|e]; [|same]. apply ef_list. right. exists y. reflexivity.
  - destruct (var_obj s y) as [o|e] eqn:Ey; [|same]. cbn [bind]. destruct (find (objs s) o) as [r|e] eqn:Eo; [|same]. cbn [bind]. destruct r as [|l|l]; try same.
    apply (ef_range s _ y o l eq_refl); [apply var_obj_ok; exact Ey|apply find_ok; exact Eo].
  - destruct (var_obj s y) as [o|e] eqn:Ey; [|same]. cbn [bind]. destruct (var_list s x) as [l|e] eqn:Ex; [|same]. cbn [bind]. destruct (obj_list s o) as [v|e]; [|same]. cbn [bind].
    destruct (find (lists s) l) as [w|e]; [|same]. apply (ef_put s _ y o (v ++ w)); [apply var_obj_ok; exact Ey|right; reflexivity|cbn; rewrite nth_new; discriminate|right; left; exists x; reflexivity].
  - destruct (var_obj s y) as [o|e] eqn:Ey; [|same]. cbn [bind]. destruct (find (objs s) o) as [r|e] eqn:Eo; [|same]. cbn [try]. destruct r as [|l|l]; try same.
    + destruct (find (lists s) l) as [v|e]; [|same]. cbn [bind]. destruct (py_get v 0) as [a|e]; [|same]. cbn [bind]. destruct (py_get v 1) as [b|e]; [|same].
      apply (ef_obj s _ [a + i; b + i]); [left; reflexivity|cbn; rewrite nth_new; discriminate|exists y, i; auto].
    + destruct (find (lists s) l) as [v|e]; [|same]. cbn [bind]. apply (ef_obj s _ (List.map (fun j => j + i) v)); [right; reflexivity|cbn; rewrite nth_new; discriminate|exists y, i; auto].
  - destruct (var_obj s y) as [o|e] eqn:Ey; [|same]. cbn [bind]. destruct (var_obj s z) as [o'|e] eqn:Ez; [|same]. cbn [bind]. destruct (obj_list s o) as [v|e]; [|same]. cbn [bind].
    destruct (obj_list s o') as [w|e]; [|same]. apply (ef_obj s _ (v ++ w)); [right; reflexivity|cbn; rewrite nth_new; discriminate|exists y, 0; right; right; exists z; reflexivity].
  - destruct (var_obj s y) as [o|e] eqn:Ey; [|same]. cbn [bind]. destruct (find (objs s) o) as [r|e]; [|same]. cbn [bind try]. destruct r as [|l|l]; try same.
    destruct (find (lists s) l) as [v|e]; [|same]. cbn [bind]. destruct (py_get v 0) as [a|e]; [|same]. cbn [bind]. destruct (py_get v (-1)) as [b|e]; [|same]. cbn [bind try].
    destruct (zlist_eqb v (zrange a (a + zlen v))); [|same]. apply (ef_put s _ y o [a; b]); [apply var_obj_ok; exact Ey|left; reflexivity|cbn; rewrite nth_new; discriminate|right; right; reflexivity].
  - apply ef_conn. reflexivity.
  - change (effect s (CAddElems c t m i) (fst (step s (CAddElems c t m i))) (snd (step s (CAddElems c t m i)))).
    destruct (step_add_cases s c t m i) as [(e & ->)|(lc & n & d & Hc & Hl)]; [same|]. rewrite (step_add s c t m i lc n d Hc Hl). destruct i as [y|].
    + destruct (var_obj s y) as [o|e] eqn:Ey; [|same]. apply (ef_add s _ c t m y o lc n d eq_refl Hc Hl). apply var_obj_ok. exact Ey.
    + apply (ef_add0 s _ c t m lc n d eq_refl Hc Hl).
Qed.

(** What [hadd2] does, for all of its outcomes. *)
Lemma hadd2_cases s lc ind n d t m : let s' := fst (hadd2 s lc ind n d t m) in
  vars s' = vars s /\
  (snd (hadd2 s lc ind n d t m) = Ok VNone \/ exists e, snd (hadd2 s lc ind n d t m) = Err e) /\
  ((lists s' = lists s /\ objs s' = objs s) \/ exists v o m0, In (t, (o, m0)) d /\ lists s' = lists s ++ [v] /\ objs s' = upd_nat (objs s) o (RList (List.length (lists s)))) /\
  exists d1, conns s' = upd_nat (conns s) lc (n + m_nrow m, d1) /\
    (d1 = d \/ (dget String.eqb t d = None /\ d1 = dset String.eqb t (ind, m) d) \/ exists o m0 m', dget String.eqb t d = Some (o, m0) /\ d1 = dset String.eqb t (o, m') d).
Proof.
  cbv zeta. unfold hadd2. destruct (dget String.eqb t d) as [[o m0]|] eqn:Et.
  - assert (Hin : In (t, (o, m0)) d) by (apply (dget_in _ seqb_eq); exact Et).
    destruct (obj_list _ ind) as [l'|e]; cbn [try fst snd]; [|split; [reflexivity|]; split; [right; eauto|]; split; [left; split; reflexivity|]; exists d; split; [reflexivity|left; reflexivity]].
    destruct (obj_list _ o) as [l0|e]; cbn [try fst snd]; [|split; [reflexivity|]; split; [right; eauto|]; split; [left; split; reflexivity|]; exists d; split; [reflexivity|left; reflexivity]].
    unfold new_list. destruct (np_vcat m0 m) as [m'|e]; cbn [try fst snd].
    + split; [reflexivity|]. split; [left; reflexivity|]. split; [right; exists (l0 ++ l'), o, m0; split; [exact Hin|split; reflexivity]|].
      exists (dset String.eqb t (o, m') d). split; [cbn; rewrite upd_nat_twice; reflexivity|]. right. right. exists o, m0, m'. auto.
    + split; [reflexivity|]. split; [right; eauto|]. split; [right; exists (l0 ++ l'), o, m0; split; [exact Hin|split; reflexivity]|].
      exists d. split; [reflexivity|left; reflexivity].
  - cbn [fst snd]. split; [reflexivity|]. split; [left; reflexivity|]. split; [left; split; reflexivity|].
    exists (dset String.eqb t (ind, m) d). split; [cbn; rewrite upd_nat_twice; reflexivity|]. right. left. auto.
Qed.
Lemma in_dset_weak {V} (d : dict string V) t x t' y : In (t', y) (dset String.eqb t x d) -> y = x \/ In (t', y) d.
Proof.
  induction d as [|[k v] d IH]; cbn [dset].
  - intros [H|[]]. left. congruence.
  - destruct (String.eqb t k).
    + intros [H|H]; [left; congruence|right; right; exact H].
    + intros [H|H]; [right; left; exact H|]. destruct (IH H) as [X|X]; [left; exact X|right; right; exact X].
Qed.
Lemma hadd2_entry s lc ind n d t m c t' o : nth_error (conns s) lc = Some (n, d) -> entry (fst (hadd2 s lc ind n d t m)) c t' o -> entry s c t' o \/ (exists t2, entry s lc t2 o) \/ o = ind.
Proof.
  intros Hl (n' & d' & m1 & A & B). destruct (hadd2_cases s lc ind n d t m) as (_ & _ & _ & d1 & Hc & Hd). rewrite Hc in A. destruct (Nat.eq_dec c lc) as [->|N].
  - rewrite nth_upd_same in A by (eapply nth_some_lt; exact Hl). injection A as _ <-. destruct Hd as [-> |[(Hg & ->)|(o0 & m0 & m' & Hg & ->)]].
    + left. exists n, d, m1. auto.
    + apply in_dset_weak in B. destruct B as [B|B]; [right; right; congruence|left; exists n, d, m1; auto].
    + apply in_dset_weak in B. destruct B as [B|B]; [|left; exists n, d, m1; auto]. right. left. exists t. exists n, d, m0. split; [exact Hl|]. injection B as -> _. apply (dget_in _ seqb_eq). exact Hg.
  - rewrite nth_upd_other in A by exact N. left. exists n', d', m1. auto.
Qed.

(** Everything refers to something. *)
Record bounded (s : mem) : Prop := Bounded {
  b_obj : forall x o, nth_error (vars s) x = Some (VObj o) -> (o < List.length (objs s))%nat;
  b_list : forall x l, nth_error (vars s) x = Some (VList l) -> (l < List.length (lists s))%nat;
  b_entry : forall c t o, entry s c t o -> (o < List.length (objs s))%nat;
  b_rep : forall o r l, nth_error (objs s) o = Some r -> in_rep r l -> (l < List.length (lists s))%nat }.
Lemma objs_len s k : (List.length (objs s) <= List.length (objs (fst (step s k))))%nat.
Proof.
  destruct (step_effect s k); cbn; rewrite ?app_length, ?upd_nat_length; try lia.
  - destruct (hadd2_cases s lc o n d t m) as (_ & _ & [(_ & ->)|(v0 & o0 & m0 & _ & _ & ->)] & _); rewrite ?upd_nat_length; lia.
  - destruct (hadd2_cases s1 lc (List.length (objs s)) n d t m) as (_ & _ & [(_ & ->)|(v0 & o0 & m0 & _ & _ & ->)] & _); rewrite ?upd_nat_length; cbn; rewrite app_length; lia.
Qed.
Lemma lists_len s k : (List.length (lists s) <= List.length (lists (fst (step s k))))%nat.
Proof.
  destruct (step_effect s k); cbn; rewrite ?app_length, ?upd_nat_length; try lia.
  - destruct (hadd2_cases s lc o n d t m) as (_ & _ & [(-> & _)|(v0 & o0 & m0 & _ & -> & _)] & _); rewrite ?app_length; lia.
  - destruct (hadd2_cases s1 lc (List.length (objs s)) n d t m) as (_ & _ & [(-> & _)|(v0 & o0 & m0 & _ & -> & _)] & _); cbn; rewrite ?app_length; lia.
Qed.
(** A list an index list refers to after the command. *)
Lemma step_rep s k o r l : nth_error (objs (fst (step s k))) o = Some r -> in_rep r l ->
  nth_error (objs s) o = Some r \/ ((List.length (lists s) <= l)%nat /\ (l < List.length (lists (fst (step s k))))%nat) \/ exists x, keeps_list k x /\ nth_error (vars s) x = Some (VList l).
Proof.
  intros H Hr. destruct (step_effect s k); cbn in H |- *; try (left; exact H).
  - apply nth_snoc in H. destruct H as [H|(_ & ->)]; [left; exact H|]. destruct Hr as [Hr|Hr]; discriminate.
  - apply nth_snoc in H. destruct H as [H|(_ & ->)]; [left; exact H|]. assert (l = List.length (lists s)) as -> by (destruct H0 as [-> | ->]; destruct Hr as [Hr|Hr]; congruence).
    right. left. rewrite app_length. cbn. lia.
  - apply nth_snoc in H. destruct H as [H|(_ & ->)]; [left; exact H|]. assert (l0 = l) as -> by (destruct Hr as [Hr|Hr]; congruence). right. right. exists x. split; [unfold keeps_list; eauto|assumption].
  - rewrite nth_error_upd_nat in H. destruct (Nat.eqb o0 o) eqn:Eo; [|left; exact H]. destruct (Nat.ltb o0 (List.length (objs s))); [|discriminate]. injection H as <-.
    assert (l = List.length (lists s)) as -> by (destruct H1 as [-> | ->]; destruct Hr as [Hr|Hr]; congruence). right. left. rewrite app_length. cbn. lia.
  - rewrite nth_error_upd_nat in H. destruct (Nat.eqb o0 o) eqn:Eo; [|left; exact H]. destruct (Nat.ltb o0 (List.length (objs s))); [|discriminate]. injection H as <-.
    assert (l0 = l) as -> by (destruct Hr as [Hr|Hr]; [discriminate Hr||injection Hr as Hr; exact Hr|discriminate Hr||injection Hr as Hr; exact Hr]). right. right. exists x. split; [unfold keeps_list; eauto|assumption].
  - destruct (hadd2_cases s lc o0 n d t m) as (_ & _ & [(_ & Ho)|(v0 & o1 & m0 & _ & Hls & Ho)] & _); rewrite Ho in H; [left; exact H|].
    rewrite nth_error_upd_nat in H. destruct (Nat.eqb o1 o); [|left; exact H]. destruct (Nat.ltb o1 (List.length (objs s))); [|discriminate]. injection H as <-.
    assert (l = List.length (lists s)) as -> by (destruct Hr as [Hr|Hr]; [discriminate Hr||injection Hr as Hr; symmetry; exact Hr|discriminate Hr||injection Hr as Hr; symmetry; exact Hr]). right. left. rewrite Hls, app_length. cbn. lia.
  - destruct (hadd2_cases s1 lc (List.length (objs s)) n d t m) as (_ & _ & [(Hls & Ho)|(v0 & o1 & m0 & _ & Hls & Ho)] & _); rewrite Ho in H.
    + cbn in H. apply nth_snoc in H. destruct H as [H|(_ & ->)]; [left; exact H|]. right. left. assert (l = List.length (lists s)) as -> by (destruct Hr as [Hr|Hr]; [discriminate Hr||injection Hr as Hr; symmetry; exact Hr|discriminate Hr||injection Hr as Hr; symmetry; exact Hr]).
      rewrite Hls. cbn. rewrite app_length. cbn. lia.
    + rewrite nth_error_upd_nat in H. destruct (Nat.eqb o1 o).
      * destruct (Nat.ltb o1 (List.length (objs s1))); [|discriminate]. injection H as <-. right. left.
        assert (l = List.length (lists s1)) as -> by (destruct Hr as [Hr|Hr]; [discriminate Hr||injection Hr as Hr; symmetry; exact Hr|discriminate Hr||injection Hr as Hr; symmetry; exact Hr]). rewrite Hls. cbn. rewrite !app_length. cbn. lia.
      * cbn in H. apply nth_snoc in H. destruct H as [H|(_ & ->)]; [left; exact H|]. right. left. assert (l = List.length (lists s)) as -> by (destruct Hr as [Hr|Hr]; [discriminate Hr||injection Hr as Hr; symmetry; exact Hr|discriminate Hr||injection Hr as Hr; symmetry; exact Hr]).
        rewrite Hls. cbn. rewrite !app_length. cbn. lia.
Qed.
(** An index list of a connectivity after the command. *)
Lemma step_entry s k c t o : entry (fst (step s k)) c t o ->
  (exists c' t', entry s c' t' o) \/ (exists y, gives k y /\ nth_error (vars s) y = Some (VObj o)) \/ (is_add k /\ (List.length (objs s) <= o)%nat /\ (o < List.length (objs (fst (step s k))))%nat).
Proof.
  intros H. destruct (step_effect s k); try (left; exists c, t; exact H).
  - destruct H as (n & d & m & A & B). cbn in A. apply nth_snoc in A. destruct A as [A|(_ & A)]; [left; exists c, t, n, d, m; auto|]. injection A as -> ->. destruct B.
  - apply hadd2_entry in H; [|assumption]. destruct H as [H|[(t2 & H)| ->]]; [left; eauto|left; eauto|]. right. left. exists y. split; [exists c0, t0, m; assumption|assumption].
  - apply hadd2_entry in H; [|assumption]. destruct H as [H|[(t2 & H)| ->]]; [left; exists c, t; exact H|left; exists lc, t2; exact H|]. right. right. split; [exists c0, t0, m, None; assumption|]. split; [lia|].
    destruct (hadd2_cases s1 lc (List.length (objs s)) n d t0 m) as (_ & _ & [(_ & ->)|(v0 & o0 & m0 & _ & _ & ->)] & _); rewrite ?upd_nat_length; cbn; rewrite app_length; cbn; lia.
Qed.
(** What the new variable refers to. *)
Lemma step_ret s k v : snd (step s k) = Ok v ->
  match v with
  | VNone | VConn _ => True
  | VObj o => (List.length (objs s) <= o)%nat /\ (o < List.length (objs (fst (step s k))))%nat
  | VList l => ((List.length (lists s) <= l)%nat /\ (l < List.length (lists (fst (step s k))))%nat) \/ exists y o, k = CRange y /\ nth_error (vars s) y = Some (VObj o) /\ nth_error (objs s) o = Some (RRange l)
  end.
Proof.
  intros H. destruct (step_effect s k) as [r Hr| | | | | | | | | | |]; try (injection H as <-); cbn; rewrite ?app_length; cbn; try exact Coq.Init.Logic.I; try lia.
  - destruct Hr as [(e & ->)|(-> & _)]; [discriminate|]. injection H as <-. exact Coq.Init.Logic.I.
  - right. exists y, o. auto.
  - destruct (hadd2_cases s lc o n d t m) as (_ & [X|(e & X)] & _); rewrite X in H; [injection H as <-; exact Coq.Init.Logic.I|discriminate].
  - destruct (hadd2_cases s1 lc (List.length (objs s)) n d t m) as (_ & [X|(e & X)] & _); rewrite X in H; [injection H as <-; exact Coq.Init.Logic.I|discriminate].
Qed.
Lemma exec_new s k x w : nth_error (vars (fst (exec s k))) x = Some w -> nth_error (vars s) x = Some w \/ (x = List.length (vars s) /\ (w = VNone \/ snd (step s k) = Ok w)).
Proof.
  rewrite exec_push. cbn. rewrite step_vars. intros H. apply nth_snoc in H. destruct H as [H|(-> & ->)]; [left; exact H|]. right. split; [reflexivity|]. destruct (snd (step s k)); auto.
Qed.
Lemma exec_entry s k c t o : entry (fst (exec s k)) c t o <-> entry (fst (step s k)) c t o.
Proof. rewrite exec_push. reflexivity. Qed.
Lemma exec_objs s k : objs (fst (exec s k)) = objs (fst (step s k)). Proof. rewrite exec_push. reflexivity. Qed.
Lemma exec_lists s k : lists (fst (exec s k)) = lists (fst (step s k)). Proof. rewrite exec_push. reflexivity. Qed.

Lemma bounded_exec s k : bounded s -> bounded (fst (exec s k)).
Proof.
  intros [Bo Bl Be Br]. assert (Lo := objs_len s k). assert (Ll := lists_len s k). split.
  - intros x o H. rewrite exec_objs. apply exec_new in H. destruct H as [H|(_ & [H|H])]; [specialize (Bo x o H); lia|discriminate|]. apply step_ret in H. lia.
  - intros x l H. rewrite exec_lists. apply exec_new in H. destruct H as [H|(_ & [H|H])]; [specialize (Bl x l H); lia|discriminate|]. apply step_ret in H.
    destruct H as [H|(y & o & _ & _ & H)]; [lia|]. specialize (Br o _ l H (or_introl eq_refl)). lia.
  - intros c t o H. rewrite exec_objs. apply (proj1 (exec_entry s k c t o)) in H. apply step_entry in H. destruct H as [(c' & t' & H)|[(y & _ & H)|H]]; [specialize (Be _ _ _ H); lia|specialize (Bo _ _ H); lia|lia].
  - intros o r l H Hr. rewrite exec_objs in H. rewrite exec_lists. destruct (step_rep s k o r l H Hr) as [X|[X|(x & _ & X)]]; [specialize (Br _ _ _ X Hr); lia|lia|specialize (Bl _ _ X); lia].
Qed.
Lemma bounded0 : bounded mem0.
Proof. split; cbn; intros; try (destruct x; discriminate); try (destruct o; discriminate). destruct H as (? & ? & ? & H & _). destruct c; discriminate. Qed.
Lemma bounded_run p s : bounded s -> bounded (fst (run s p)).
Proof.
  revert s. induction p as [|k p IH]; intros s B; [exact B|]. cbn [run]. assert (B1 := bounded_exec s k B). destruct (exec s k) as [s1 r]. cbn [fst] in B1. specialize (IH s1 B1). destruct (run s1 p). exact IH.
Qed.
Lemma add_ret s k v : is_add k -> snd (step s k) = Ok v -> v = VNone.
Proof.
  intros (c & t & m & i & ->) H. destruct (step_add_cases s c t m i) as [(e & X)|(lc & n & d & Hc & Hl)]; [rewrite X in H; discriminate|].
  rewrite (step_add s c t m i lc n d Hc Hl) in H. destruct i as [y|].
  - destruct (var_obj s y) as [o|e]; [|discriminate]. destruct (hadd2_cases s lc o n d t m) as (_ & [X|(e & X)] & _); rewrite X in H; [congruence|discriminate].
  - match type of H with snd (hadd2 ?s1 lc ?o n d t m) = _ => destruct (hadd2_cases s1 lc o n d t m) as (_ & [X|(e & X)] & _); rewrite X in H; [congruence|discriminate] end.
Qed.

(** Every program: one variable per index list, and the index lists of the connectivities were given. *)
Lemma run_linked p : let s := after p in bounded s /\ (forall x y o, nth_error (vars s) x = Some (VObj o) -> nth_error (vars s) y = Some (VObj o) -> x = y) /\
  (forall c t o y, entry s c t o -> nth_error (vars s) y = Some (VObj o) -> Gof p y).
Proof.
  cbv zeta. induction p as [|k p (B & I & G)] using rev_ind.
  - split; [apply bounded0|]. split; cbn; intros; destruct y; discriminate.
  - assert (E : after (p ++ [k]) = fst (exec (after p) k)) by (unfold after; rewrite run_snoc; reflexivity). rewrite E. set (s := after p) in *.
    split; [apply bounded_exec; exact B|]. split.
    + intros x y o Hx Hy. apply exec_new in Hx. apply exec_new in Hy. destruct Hx as [Hx|(-> & [Hx|Hx])]; [|discriminate|]; (destruct Hy as [Hy|(-> & [Hy|Hy])]; [|discriminate|]).
      * eauto.
      * exfalso. apply step_ret in Hy. apply (b_obj _ B) in Hx. lia.
      * exfalso. apply step_ret in Hx. apply (b_obj _ B) in Hy. lia.
      * reflexivity.
    + intros c t o y He Hy. apply (proj1 (exec_entry s k c t o)) in He. apply exec_new in Hy. apply step_entry in He.
      destruct Hy as [Hy|(-> & [Hy|Hy])]; [|discriminate|].
      * destruct He as [(c' & t' & He)|[(y' & Hg & Hy')|(_ & L & _)]].
        -- destruct (G _ _ _ _ He Hy) as (k' & A & C). exists k'. split; [apply in_or_app; left; exact A|exact C].
        -- rewrite (I y y' o Hy Hy'). exists k. split; [apply in_or_app; right; left; reflexivity|exact Hg].
        -- apply (b_obj _ B) in Hy. lia.
      * assert (Hy1 := Hy). apply step_ret in Hy1. destruct He as [(c' & t' & He)|[(y' & Hg & Hy')|(Ha & L & _)]].
        -- apply (b_entry _ B) in He. lia.
        -- apply (b_obj _ B) in Hy'. lia.
        -- apply (add_ret s k) in Hy; [discriminate|exact Ha].
Qed.

(** ** The index list of [y] is nobody else's *)
Record alone (s : mem) (y : var) (o : loc) : Prop := Alone {
  a_var : nth_error (vars s) y = Some (VObj o);
  a_uniq : forall y', nth_error (vars s) y' = Some (VObj o) -> y' = y;
  a_free : forall c t, ~ entry s c t o }.
Lemma alone_receiver s k y o : alone s y o -> ~ changes k y -> ~ receiver s k o.
Proof.
  intros [Av Au Af] N [(y' & Hy & Hk)|(c & t & m & i & lc & n & d & m0 & Hk & Hc & Hl & Hin)].
  - rewrite (Au y' Hy) in Hk. apply N. unfold changes. tauto.
  - apply (Af lc t). exists n, d, m0. auto.
Qed.
Lemma alone_exec s k y o : bounded s -> alone s y o -> ~ changes k y -> alone (fst (exec s k)) y o.
Proof.
  intros B [Av Au Af] N. assert (Lo := b_obj _ B y o Av). split.
  - rewrite exec_push. cbn. rewrite step_vars. apply app1_some. exact Av.
  - intros y' Hy. apply exec_new in Hy. destruct Hy as [Hy|(-> & [Hy|Hy])]; [auto|discriminate|]. apply step_ret in Hy. lia.
  - intros c t He. apply (proj1 (exec_entry s k c t o)) in He. apply step_entry in He. destruct He as [(c' & t' & He)|[(y' & Hg & Hy')|(_ & L & _)]].
    + exact (Af _ _ He).
    + rewrite (Au y' Hy') in Hg. apply N. unfold changes. tauto.
    + lia.
Qed.
Lemma alone_run s q y o r : bounded s -> alone s y o -> nth_error (objs s) o = Some r -> (forall k, In k q -> ~ changes k y) ->
  alone (fst (run s q)) y o /\ nth_error (objs (fst (run s q))) o = Some r.
Proof.
  revert s. induction q as [|k q IH]; intros s B A Ho N; [split; assumption|]. cbn [run].
  assert (Nk := N k (or_introl eq_refl)). assert (B1 := bounded_exec s k B). assert (A1 := alone_exec s k y o B A Nk).
  assert (O1 : nth_error (objs (fst (exec s k))) o = Some r) by (rewrite exec_objs; apply step_objs; [exact Ho|eapply alone_receiver; eassumption]).
  destruct (exec s k) as [s1 r1]. cbn [fst] in *. destruct (IH s1 B1 A1 O1) as (X & Y); [intros k' Hk; apply N; right; exact Hk|]. destruct (run s1 q). split; assumption.
Qed.
Lemma run_var s q x v : nth_error (vars s) x = Some v -> nth_error (vars (fst (run s q))) x = Some v.
Proof.
  revert s. induction q as [|k q IH]; intros s H; [exact H|]. cbn [run]. destruct (exec_vars s k) as (w & E). destruct (exec s k) as [s1 r1]. cbn [fst] in E.
  assert (H1 : nth_error (vars s1) x = Some v) by (rewrite E; apply app1_some; exact H). specialize (IH s1 H1). destruct (run s1 q). exact IH.
Qed.

(** The list of the index list is nobody else's either. *)
Record own (s : mem) (y : var) (o l : loc) (r : rep) (w : list Z) : Prop := Own {
  o_alone : alone s y o;
  o_rep : nth_error (objs s) o = Some r;
  o_in : in_rep r l;
  o_val : nth_error (lists s) l = Some w;
  o_novar : forall x, nth_error (vars s) x <> Some (VList l);
  o_only : forall o' r', nth_error (objs s) o' = Some r' -> in_rep r' l -> o' = o }.
Lemma own_exec s k y o l r w : bounded s -> own s y o l r w -> ~ changes k y -> k <> CRange y -> own (fst (exec s k)) y o l r w.
Proof.
  intros B [A Or Oi Ov On Oo] N Nr. assert (Ll := nth_some_lt _ _ _ Ov). split.
  - apply alone_exec; assumption.
  - rewrite exec_objs. apply step_objs; [exact Or|eapply alone_receiver; eassumption].
  - exact Oi.
  - rewrite exec_lists. destruct k as [v|x v| |x|x|y' x|y' x|y'|y'|y' x|y' i|y' z|y'| |c t m i]; try (apply step_lists; [discriminate|exact Ov]).
    cbn [step]. destruct (var_list s x) as [l'|e] eqn:Ex; [|exact Ov]. cbn. apply var_list_ok in Ex. rewrite nth_upd_other; [exact Ov|]. intros ->. exact (On x Ex).
  - intros x Hx. apply exec_new in Hx. destruct Hx as [Hx|(-> & [Hx|Hx])]; [exact (On x Hx)|discriminate|]. apply step_ret in Hx. destruct Hx as [Hx|(y' & o' & -> & Hy & Ho)]; [lia|].
    assert (o' = o) as -> by (apply (Oo o' (RRange l) Ho); left; reflexivity). apply Nr. f_equal. apply (a_uniq _ _ _ A). exact Hy.
  - intros o' r' Ho Hr. rewrite exec_objs in Ho. destruct (step_rep s k o' r' l Ho Hr) as [X|[X|(x & _ & X)]]; [eauto|lia|destruct (On x X)].
Qed.
Lemma own_run s q y o l r w : bounded s -> own s y o l r w -> (forall k, In k q -> ~ changes k y /\ k <> CRange y) -> own (fst (run s q)) y o l r w.
Proof.
  revert s. induction q as [|k q IH]; intros s B A N; [exact A|]. cbn [run]. destruct (N k (or_introl eq_refl)) as (N1 & N2).
  assert (B1 := bounded_exec s k B). assert (A1 := own_exec s k y o l r w B A N1 N2). destruct (exec s k) as [s1 r1]. cbn [fst] in *.
  specialize (IH s1 B1 A1 (fun k' Hk => N k' (or_intror Hk))). destruct (run s1 q). exact IH.
Qed.
Lemma own_seen s y o l r w : own s y o l r w -> forall il, seen s y (PIdx il) <-> view_rep [w] (match r with RNone => RNone | RRange _ => RRange 0%nat | RList _ => RList 0%nat end) = Some il.
Proof.
  intros [A Or Oi Ov _ _] il. unfold seen. rewrite (a_var _ _ _ A). unfold view. rewrite Or. destruct Oi as [-> | ->]; cbn; rewrite Ov; reflexivity.
Qed.
