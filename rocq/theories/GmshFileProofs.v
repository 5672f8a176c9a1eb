(** * Proofs about the Gmsh reader: sections, nodes, entities. *)
From Coq Require Import Lia Permutation Ascii DecimalString.
From Coq Require DecimalNat DecimalPos DecimalN.
From Verif Require Import Py PyFacts Elements IndexList Conn Mesh Files FilesProofs Gmsh GmshSpec GroupFacts.

Lemma seqb_eq' a b : String.eqb a b = true <-> a = b. Proof. apply String.eqb_eq. Qed.

Lemma line_eqb_eq a b : line_eqb a b = true <-> a = b.
Proof.
  revert b. induction a as [|x a IH]; destruct b as [|y b]; cbn [line_eqb]; try (split; congruence).
  rewrite Bool.andb_true_iff, String.eqb_eq, IH. split; [intros [-> ->]; auto|intros H; injection H; auto].
Qed.

Lemma index_from_app i pre l post : ~ In l pre -> index_from i (pre ++ l :: post) l = Ok (i + zlen pre).
Proof.
  revert i. induction pre as [|a pre IH]; intros i H; cbn [app index_from].
  - assert (E : line_eqb l l = true) by now apply line_eqb_eq. rewrite E, zlen_nil. f_equal. lia.
  - destruct (line_eqb a l) eqn:E.
    + apply line_eqb_eq in E. subst. exfalso. apply H. left; auto.
    + rewrite IH by (intros X; apply H; right; auto). rewrite zlen_cons. f_equal. lia.
Qed.

Lemma section_get msh name body : section_is msh name body -> get_section msh name = Ok body.
Proof.
  intros (pre & post & E & H1 & H2). unfold get_section. subst msh. cbn [app] in *.
  set (b := [("$" ++ name)%string]) in *. set (e := [("$End" ++ name)%string]) in *.
  assert (NE : b <> e).
  { unfold b, e. cbn. intros X. injection X as X. apply (f_equal String.length) in X.
    assert (L : forall s t, String.length (s ++ t)%string = (String.length s + String.length t)%nat).
    { clear. induction s; intros t; cbn; auto. }
    cbn in X. lia. }
  assert (E1 : index_from 0 (pre ++ b :: body ++ e :: post) b = Ok (zlen pre)).
  { rewrite index_from_app by auto. f_equal. }
  assert (E2 : index_from 0 (pre ++ b :: body ++ e :: post) e = Ok (zlen pre + 1 + zlen body)).
  { replace (pre ++ b :: body ++ e :: post) with ((pre ++ b :: body) ++ e :: post) by (rewrite <- app_assoc; reflexivity).
    rewrite index_from_app.
    - change (0 + zlen (pre ++ b :: body)) with (zlen (pre ++ b :: body)). rewrite zlen_app, zlen_cons. f_equal. ring.
    - intros X. apply in_app_iff in X. apply H2. apply in_app_iff. destruct X as [X|[X|X]]; auto. congruence. }
  rewrite E1. cbn [bind]. rewrite E2. cbn [bind]. f_equal.
  replace (pre ++ b :: body ++ e :: post) with ((pre ++ [b]) ++ body ++ e :: post) by (rewrite <- app_assoc; reflexivity).
  replace (zlen pre + 1) with (zlen (pre ++ [b])) by (rewrite zlen_app, zlen_cons, zlen_nil; lia).
  apply py_slice_mid.
Qed.

Lemma py_get_cons0 {A} (a : A) l : py_get (a :: l) 0 = Ok a. Proof. reflexivity. Qed.

Lemma py_get_nth {A} (l : list A) i a : 0 <= i -> nth_error l (Z.to_nat i) = Some a -> py_get l i = Ok a.
Proof. intros. now apply py_get_nonneg. Qed.

(** A loop over consecutive lines. *)
Lemma mapM_lines {A B} (f : Z -> res B) (l : list A) (g : A -> B) lo :
  (forall k a, nth_error l k = Some a -> f (lo + Z.of_nat k) = Ok (g a)) ->
  mapM f (zrange lo (lo + zlen l)) = Ok (List.map g l).
Proof.
  revert lo. induction l as [|a l IH]; intros lo H.
  - rewrite zlen_nil, zrange_empty by lia. reflexivity.
  - pose proof (zlen_nonneg l) as HL. rewrite zlen_cons, zrange_cons by lia. cbn [mapM List.map].
    pose proof (H 0%nat a eq_refl) as H0. rewrite Z.add_0_r in H0. rewrite H0. cbn [bind].
    replace (lo + (zlen l + 1)) with (lo + 1 + zlen l) by lia. rewrite IH; auto.
    intros k b Hk. specialize (H (S k) b Hk). replace (lo + 1 + Z.of_nat k) with (lo + Z.of_nat (S k)) by lia. auto.
Qed.

Lemma foldM_lines {A S} (P : S -> Prop) (f : S -> Z -> res S) (l : list A) (h : S -> A -> S) : forall lo s,
  P s ->
  (forall k a s, nth_error l k = Some a -> P s -> f s (lo + Z.of_nat k) = Ok (h s a) /\ P (h s a)) ->
  foldM f s (zrange lo (lo + zlen l)) = Ok (fold_left h l s) /\ P (fold_left h l s).
Proof.
  induction l as [|a l IH]; intros lo s Hs H.
  - rewrite zlen_nil, zrange_empty by lia. split; auto.
  - pose proof (zlen_nonneg l) as HL. rewrite zlen_cons, zrange_cons by lia. cbn [foldM fold_left].
    pose proof (H 0%nat a s eq_refl Hs) as H0. rewrite Z.add_0_r in H0. destruct H0 as [H0 H1]. rewrite H0. cbn [bind].
    replace (lo + (zlen l + 1)) with (lo + 1 + zlen l) by lia. apply IH; auto.
    intros k b s' Hk Hs'. specialize (H (Datatypes.S k) b s' Hk Hs').
    replace (lo + 1 + Z.of_nat k) with (lo + Z.of_nat (Datatypes.S k)) by lia. auto.
Qed.

Lemma Forall2_nth {A B} (R : A -> B -> Prop) l m k a : Forall2 R l m -> nth_error l k = Some a ->
  exists b, nth_error m k = Some b /\ R a b.
Proof.
  intros H. revert k. induction H; intros k E; destruct k; cbn in E; try discriminate.
  - injection E as <-. exists y. split; auto.
  - apply IHForall2. auto.
Qed.

Lemma Forall2_zlen {A B} (R : A -> B -> Prop) l m : Forall2 R l m -> zlen l = zlen m.
Proof. intros H. apply Forall2_length' in H. unfold zlen. lia. Qed.

Lemma mapM_tokens {B} (f : string -> res B) l zs : Forall2 (fun t z => f t = Ok z) l zs -> mapM f l = Ok zs.
Proof. induction 1 as [|t z l zs H _ IH]; auto. cbn [mapM]. rewrite H. cbn [bind]. now rewrite IH. Qed.

(** The k-th of the lines after the first. *)
Lemma line_get {A} (h : A) lines rest k l : nth_error lines k = Some l ->
  py_get (h :: lines ++ rest) (1 + Z.of_nat k) = Ok l.
Proof.
  intros H. apply py_get_nth; [lia|]. replace (Z.to_nat (1 + Z.of_nat k)) with (S k) by lia. cbn [nth_error].
  rewrite nth_error_app1; auto. apply nth_error_Some. congruence.
Qed.

(** ** Decimal texts *)

Lemma of_uint_acc_pos d : forall acc, Nat.of_uint_acc d (Pos.to_nat acc) = Pos.to_nat (Pos.of_uint_acc d acc).
Proof.
  induction d as [|d IH|d IH|d IH|d IH|d IH|d IH|d IH|d IH|d IH|d IH]; intros acc; [reflexivity|..];
    cbn [Nat.of_uint_acc Pos.of_uint_acc]; rewrite <- IH; f_equal; rewrite Nat.tail_mul_spec; lia.
Qed.
Lemma of_uint_nat d : Nat.of_uint d = N.to_nat (Pos.of_uint d).
Proof.
  unfold Nat.of_uint. induction d as [|d IH|d IH|d IH|d IH|d IH|d IH|d IH|d IH|d IH|d IH]; [reflexivity|exact IH|..];
  cbn [Nat.of_uint_acc Pos.of_uint N.to_nat]; rewrite <- of_uint_acc_pos; reflexivity.
Qed.
Lemma nat_to_uint_pos p : Nat.to_uint (Pos.to_nat p) = Pos.to_uint p.
Proof.
  assert (E : Nat.of_uint (Pos.to_uint p) = Pos.to_nat p). { rewrite of_uint_nat. rewrite (DecimalPos.Unsigned.of_to p). reflexivity. }
  rewrite <- E, DecimalNat.Unsigned.to_of.
  change (Pos.to_uint p) with (N.to_uint (Npos p)). rewrite <- DecimalN.Unsigned.to_of, DecimalN.Unsigned.of_to. reflexivity.
Qed.
Lemma py_str_decimal z : py_str z = decimal z.
Proof.
  unfold decimal. destruct z as [|p|p]; [reflexivity| |].
  - unfold py_str. cbn [Z.ltb Z.compare Z.to_nat Z.to_int DecimalString.NilZero.string_of_int]. unfold dec. rewrite nat_to_uint_pos. reflexivity.
  - unfold py_str. cbn [Z.ltb Z.compare Z.opp Z.to_nat Z.to_int DecimalString.NilZero.string_of_int]. unfold dec. rewrite nat_to_uint_pos. reflexivity.
Qed.
Lemma py_str_inj a b : py_str a = py_str b -> a = b.
Proof.
  assert (D : forall n, exists c s, dec n = String c s /\ c <> "-"%char).
  { intros n. unfold dec. destruct (Nat.to_uint n); cbn; eexists; eexists; (split; [reflexivity|]; discriminate). }
  unfold py_str. intros H. destruct (Z.ltb_spec a 0), (Z.ltb_spec b 0).
  - cbn in H. injection H as H. apply dec_inj in H. lia.
  - cbn in H. destruct (D (Z.to_nat b)) as (c & s & E & N). rewrite E in H. injection H as HH _. congruence.
  - cbn in H. destruct (D (Z.to_nat a)) as (c & s & E & N). rewrite E in H. injection H as HH _. congruence.
  - apply dec_inj in H. lia.
Qed.

Lemma str_inner_quoted s : str_inner (quote ++ s ++ quote) = s.
Proof.
  unfold str_inner, quote. cbn [String.append String.length].
  assert (L : forall s t, String.length (s ++ t)%string = (String.length s + String.length t)%nat).
  { clear. induction s; intros t; cbn; auto. }
  rewrite L. cbn [String.length]. replace (S (String.length s + 1) - 2)%nat with (String.length s) by lia.
  cbn [String.substring]. clear L. generalize (String (Ascii.ascii_of_nat 34) ""). intros q.
  induction s as [|c s IH]; [now destruct q|]. cbn [String.length String.append String.substring]. now rewrite IH.
Qed.

(** ** Names *)

Definition fam_table (ns : list (Z * Z * string)) : dict string string :=
  fold_left (fun d n => dset String.eqb (py_str (snd (fst n))) (snd n) d) ns [].

Lemma fam_table_get ns p : dget String.eqb (py_str p) (fam_table ns) = phys_name ns p.
Proof.
  unfold fam_table, phys_name. induction ns as [|n ns IH] using rev_ind; [reflexivity|].
  rewrite fold_left_app. cbn [fold_left]. rewrite filter_app. cbn [filter].
  destruct (Z.eqb_spec (snd (fst n)) p) as [<-|H].
  - rewrite (dget_dset_eq _ seqb_eq'). rewrite rev_app_distr. reflexivity.
  - rewrite (dget_dset_neq _ seqb_eq') by (intros X; apply py_str_inj in X; congruence). now rewrite app_nil_r.
Qed.

Section Read.
  Context {F : Type} (int_of : string -> res Z) (float_of : string -> res F) (ver_of : string -> res Z).
  Notation xyzs := (list (option F) * list (option F) * list (option F))%type.

  Lemma names_read msh names : names_are int_of msh names ->
    read_families int_of msh = Ok (option_map fam_table names).
  Proof.
    unfold read_families, names_are. destruct names as [ns|].
    - intros (th & more & lines & rest & S & Hn & H).
      assert (E : existsb (fun l => line_eqb l ["$PhysicalNames"%string]) msh = true).
      { destruct S as (pre & post & -> & _ & _). apply existsb_exists. exists ["$PhysicalNames"%string]. split.
        - apply in_app_iff. right. left. reflexivity.
        - now apply line_eqb_eq. }
      rewrite E. rewrite (section_get _ _ _ S). cbn [bind].
      set (sec := (th :: more) :: lines ++ rest).
      assert (I : int_at int_of sec 0 0 = Ok (zlen ns)) by exact Hn.
      rewrite I. cbn [bind].
      match goal with |- context [foldM ?f [] _] => set (step := f) end.
      destruct (foldM_lines (fun _ => True) step ns
        (fun d n => dset String.eqb (py_str (snd (fst n))) (snd n) d) 1 []) as [R _]; auto.
      { intros k ((dim & tag) & nm) fam Hk _. split; auto.
        destruct (Forall2_nth _ _ _ _ _ H Hk) as (l & Hl & td & mo & -> & _).
        rewrite <- py_str_decimal in Hl. unfold step, tok, sec. rewrite (line_get _ _ _ _ _ Hl). cbn [bind fst snd].
        change (py_get (td :: py_str tag :: (quote ++ nm ++ quote)%string :: mo) 1) with (Ok (py_str tag)).
        change (py_get (td :: py_str tag :: (quote ++ nm ++ quote)%string :: mo) 2) with (Ok (quote ++ nm ++ quote)%string).
        cbn [bind]. now rewrite str_inner_quoted. }
      replace (zlen ns + 1) with (1 + zlen ns) by lia. rewrite R. reflexivity.
    - intros H. destruct (existsb (fun l => line_eqb l ["$PhysicalNames"%string]) msh) eqn:E; auto. apply existsb_exists in E. destruct E as (l & Hl & El).
      apply line_eqb_eq in El. subst. tauto.
  Qed.

  (** ** Version 2 *)

  Lemma nodes2_read msh nodes : nodes2_are int_of float_of msh nodes ->
    exists sec, get_section msh "Nodes" = Ok sec /\
      nodes_v2 int_of float_of sec = Ok (List.map (fun n => Some (fst (fst n))) nodes,
        List.map (fun n => Some (snd (fst n))) nodes, List.map (fun n => Some (snd n)) nodes).
  Proof.
    intros (th & more & lines & rest & S & Hn & H). eexists. split; [apply (section_get _ _ _ S)|].
    unfold nodes_v2, int_at at 1, tok at 1. rewrite py_get_cons0. cbn [bind]. rewrite py_get_cons0. cbn [bind].
    rewrite Hn. cbn [bind]. replace (zlen nodes + 1) with (1 + zlen nodes) by lia.
    assert (G : forall k n, nth_error nodes k = Some n -> exists l, py_get ((th :: more) :: lines ++ rest) (1 + Z.of_nat k) = Ok l /\ node_line2 float_of n l).
    { intros k n Hk. destruct (Forall2_nth _ _ _ _ _ H Hk) as (l & Hl & Hb). exists l. split; auto. now apply line_get. }
    rewrite (mapM_lines _ nodes (fun n => fst (fst n))).
    2:{ intros k n Hk. destruct (G k n Hk) as (l & E & Hb). unfold float_at, tok. rewrite E. cbn [bind].
        destruct n as ((x & y) & z). destruct Hb as (tn & tx & ty & tz & mo & -> & Hx & Hy & Hz). exact Hx. }
    cbn [bind]. rewrite (mapM_lines _ nodes (fun n => snd (fst n))).
    2:{ intros k n Hk. destruct (G k n Hk) as (l & E & Hb). unfold float_at, tok. rewrite E. cbn [bind].
        destruct n as ((x & y) & z). destruct Hb as (tn & tx & ty & tz & mo & -> & Hx & Hy & Hz). exact Hy. }
    cbn [bind]. rewrite (mapM_lines _ nodes (fun n => snd n)).
    2:{ intros k n Hk. destruct (G k n Hk) as (l & E & Hb). unfold float_at, tok. rewrite E. cbn [bind].
        destruct n as ((x & y) & z). destruct Hb as (tn & tx & ty & tz & mo & -> & Hx & Hy & Hz). exact Hz. }
    cbn [bind]. now rewrite !map_map.
  Qed.

  Lemma elts2_read msh elts : elts2_are int_of msh elts ->
    exists sec, get_section msh "Elements" = Ok sec /\ elts_v2 int_of sec = Ok (List.map felt_line elts).
  Proof.
    intros (th & more & lines & rest & S & Hn & H). eexists. split; [apply (section_get _ _ _ S)|].
    unfold elts_v2, int_at, tok. rewrite py_get_cons0. cbn [bind]. rewrite py_get_cons0. cbn [bind].
    rewrite Hn. cbn [bind]. replace (zlen elts + 1) with (1 + zlen elts) by lia.
    apply mapM_lines. intros k e Hk. destruct (Forall2_nth _ _ _ _ _ H Hk) as (l & Hl & Hb).
    rewrite (line_get _ _ _ _ _ Hl). cbn [bind]. now apply mapM_tokens.
  Qed.

  Lemma format_read msh v fuel : format_is int_of ver_of msh v ->
    read_sections int_of float_of ver_of fuel msh =
    if v <=? 2 then read_v2 int_of float_of msh else if 4 <=? v then read_v4 int_of float_of fuel msh else Err RuntimeError.
  Proof.
    intros (tv & tb & ts & more & rest & S & Hv & Hb & Hs). unfold read_sections.
    rewrite (section_get _ _ _ S). cbn [bind]. unfold int_at, tok. rewrite py_get_cons0. cbn [bind].
    change (py_get (tv :: tb :: ts :: more) 0) with (Ok tv). cbn [bind]. rewrite Hv. cbn [bind].
    change (py_get (tv :: tb :: ts :: more) 1) with (Ok tb). cbn [bind]. rewrite Hb. cbn [bind]. cbn [assertb Z.eqb bind].
    change (py_get (tv :: tb :: ts :: more) 2) with (Ok ts). cbn [bind]. rewrite Hs. cbn [bind]. reflexivity.
  Qed.

  Lemma v2_read msh v fuel names nodes elts :
    format_is int_of ver_of msh v -> v <= 2 -> names_are int_of msh names ->
    nodes2_are int_of float_of msh nodes -> elts2_are int_of msh elts ->
    read_sections int_of float_of ver_of fuel msh =
    Ok (option_map fam_table names,
        (List.map (fun n => Some (fst (fst n))) nodes, List.map (fun n => Some (snd (fst n))) nodes,
         List.map (fun n => Some (snd n)) nodes),
        List.map felt_line elts).
  Proof.
    intros Hf Hv Hn Hc He. rewrite (format_read msh v) by auto. replace (v <=? 2) with true by lia.
    unfold read_v2. rewrite (names_read _ _ Hn). cbn [bind].
    destruct (nodes2_read _ _ Hc) as (s1 & S1 & R1). rewrite S1. cbn [bind]. rewrite R1. cbn [bind].
    destruct (elts2_read _ _ He) as (s2 & S2 & R2). rewrite S2. cbn [bind]. rewrite R2. reflexivity.
  Qed.

  (** ** Version 4: nodes *)

  Definition put_node (xyz : xyzs) (n : Z * (F * F * F)) : xyzs :=
    let '(x, y, z) := xyz in let '(tag, (a, b, c)) := n in
    (upd_nat x (Z.to_nat (tag - 1)) (Some a), upd_nat y (Z.to_nat (tag - 1)) (Some b), upd_nat z (Z.to_nat (tag - 1)) (Some c)).
  Definition sized (n : Z) (xyz : xyzs) : Prop :=
    let '(x, y, z) := xyz in zlen x = n /\ zlen y = n /\ zlen z = n.

  Lemma upd_zlen {A} (l : list A) k v : zlen (upd_nat l k v) = zlen l.
  Proof. unfold zlen. now rewrite upd_nat_length. Qed.

  Lemma block_read n coords A b ls B xyz :
    coords = A ++ ls ++ B -> block4_lines int_of float_of b ls -> sized n xyz ->
    (forall nd, In nd b -> 1 <= fst nd <= n) ->
    int_at int_of coords (zlen A) 3 = Ok (zlen b) /\
    foldM (node_step int_of float_of coords (zlen b)) xyz (zrange (zlen A + 1) (zlen A + zlen b + 1)) = Ok (fold_left put_node b xyz) /\
    sized n (fold_left put_node b xyz) /\ zlen ls = 2 * zlen b + 1.
  Proof.
    intros E (h & th & tags & cs & -> & Hh & Hth & Ht & Hc) Hs Hr.
    pose proof (Forall2_zlen _ _ _ Ht) as L1. pose proof (Forall2_zlen _ _ _ Hc) as L2. pose proof (zlen_nonneg A) as LA.
    assert (G0 : py_get coords (zlen A) = Ok h).
    { rewrite E. replace (zlen A) with (zlen A + 0) by lia. apply py_get_app_mid; [lia|]. reflexivity. }
    assert (G1 : forall k l, nth_error tags k = Some l -> py_get coords (zlen A + 1 + Z.of_nat k) = Ok l).
    { intros k l Hk. rewrite E. replace (zlen A + 1 + Z.of_nat k) with (zlen A + (1 + Z.of_nat k)) by lia.
      apply py_get_app_mid; [lia|]. replace (Z.to_nat (1 + Z.of_nat k)) with (S k) by lia. cbn [nth_error].
      rewrite nth_error_app1; auto. apply nth_error_Some. congruence. }
    assert (G2 : forall k l, nth_error cs k = Some l -> py_get coords (zlen A + 1 + Z.of_nat k + zlen b) = Ok l).
    { intros k l Hk. rewrite E.
      replace (zlen A + 1 + Z.of_nat k + zlen b) with (zlen A + (1 + Z.of_nat (List.length tags + k))) by (unfold zlen in *; lia).
      apply py_get_app_mid; [lia|]. replace (Z.to_nat (1 + Z.of_nat (List.length tags + k))) with (S (List.length tags + k)) by lia.
      cbn [nth_error]. rewrite nth_error_app2 by lia. replace (List.length tags + k - List.length tags)%nat with k by lia. auto. }
    split.
    { unfold int_at, tok. rewrite G0. cbn [bind]. rewrite (py_get_nth h 3 th) by (try lia; exact Hh). cbn [bind]. exact Hth. }
    replace (zlen A + zlen b + 1) with (zlen A + 1 + zlen b) by lia.
    destruct (foldM_lines (sized n) (node_step int_of float_of coords (zlen b)) b put_node (zlen A + 1) xyz Hs) as [R1 R2].
    { intros k (tag & ((a & bb) & c)) ((x & y) & z) Hk (S1 & S2 & S3).
      destruct (Forall2_nth _ _ _ _ _ Ht Hk) as (l & Hl & t & mo & -> & Hint). cbn [fst] in Hint.
      destruct (Forall2_nth _ _ _ _ _ Hc Hk) as (l2 & Hl2 & Hx). cbn [snd] in Hx.
      destruct Hx as (tx & ty & tz & mo2 & -> & Fx & Fy & Fz).
      assert (Hin : 1 <= tag <= n) by (apply (Hr (tag, (a, bb, c))); eapply nth_error_In; eauto).
      split.
      - unfold node_step, int_at, float_at, tok. rewrite (G1 _ _ Hl). cbn [bind]. rewrite py_get_cons0. cbn [bind].
        rewrite Hint. cbn [bind]. rewrite (G2 _ _ Hl2). cbn [bind].
        change (py_get (tx :: ty :: tz :: mo2) 0) with (Ok tx). change (py_get (tx :: ty :: tz :: mo2) 1) with (Ok ty).
        change (py_get (tx :: ty :: tz :: mo2) 2) with (Ok tz). cbn [bind]. rewrite Fx. cbn [bind].
        rewrite py_set_nonneg by lia. cbn [bind]. rewrite Fy. cbn [bind]. rewrite py_set_nonneg by lia. cbn [bind].
        rewrite Fz. cbn [bind]. rewrite py_set_nonneg by lia. reflexivity.
      - cbn [put_node sized]. now rewrite !upd_zlen. }
    split; [exact R1|]. split; [exact R2|]. rewrite zlen_cons, zlen_app. lia.
  Qed.

  (** The blocks read: until the counter, which starts at 1, reaches [n]. *)
  Fixpoint read_until (n cnt : Z) (bs : list (list (Z * (F * F * F)))) (xyz : xyzs) : option xyzs :=
    if cnt <? n then
      match bs with
      | [] => None
      | b :: bs' => read_until n (cnt + zlen b) bs' (fold_left put_node b xyz)
      end
    else Some xyz.

  Lemma nodes_loop_read n coords : forall bs A bls rest cnt xyz fuel,
    coords = A ++ List.concat bls ++ rest -> Forall2 (block4_lines int_of float_of) bs bls -> sized n xyz ->
    (forall b nd, In b bs -> In nd b -> 1 <= fst nd <= n) ->
    (List.length bs < fuel)%nat ->
    match read_until n cnt bs xyz with
    | Some r => nodes_loop int_of float_of fuel coords n cnt (zlen A) xyz = Ok r
    | None => rest = [] -> nodes_loop int_of float_of fuel coords n cnt (zlen A) xyz = Err IndexError
    end.
  Proof.
    induction bs as [|b bs IH]; intros A bls rest cnt xyz fuel E HF Hs Hr Hf.
    - cbn [read_until]. destruct (cnt <? n) eqn:C.
      + intros ->. inversion HF. subst bls. cbn [List.concat app] in E. rewrite app_nil_r in E. subst A.
        destruct fuel as [|fuel]; [cbn in Hf; lia|]. cbn [nodes_loop]. rewrite C. unfold int_at, tok.
        assert (X : py_get coords (zlen coords) = Err IndexError).
        { apply py_get_err_iff. pose proof (zlen_nonneg coords). lia. }
        rewrite X. reflexivity.
      + destruct fuel; cbn [nodes_loop]; now rewrite C.
    - cbn [read_until]. destruct (cnt <? n) eqn:C.
      2:{ destruct fuel; cbn [nodes_loop]; now rewrite C. }
      inversion HF as [|? ls ? bls' Hb HF' Q1 Q2]. subst.
      destruct fuel as [|fuel]; [cbn in Hf; lia|]. cbn [List.length] in Hf.
      destruct (block_read n (A ++ List.concat (ls :: bls') ++ rest) A b ls (List.concat bls' ++ rest) xyz) as (R1 & R2 & R3 & R4); auto.
      { cbn [List.concat]. now rewrite <- app_assoc. }
      { intros nd Hnd. apply (Hr b); auto. left; auto. }
      cbn [nodes_loop]. rewrite C, R1. cbn [bind]. rewrite R2. cbn [bind].
      specialize (IH (A ++ ls) bls' rest (cnt + zlen b) (fold_left put_node b xyz) fuel).
      rewrite zlen_app, R4 in IH. replace (zlen A + 2 * zlen b + 1) with (zlen A + (2 * zlen b + 1)) by lia.
      apply IH; auto.
      + cbn [List.concat]. now rewrite <- !app_assoc.
      + intros b' nd Hb' Hnd. apply (Hr b'); auto. right; auto.
      + lia.
  Qed.

  Lemma nodes4_read sec n blocks rest fuel : nodes4_sec int_of float_of sec n blocks rest -> 0 <= n ->
    (forall b nd, In b blocks -> In nd b -> 1 <= fst nd <= n) -> (List.length blocks < fuel)%nat ->
    match read_until n 1 blocks (repeat None (Z.to_nat n), repeat None (Z.to_nat n), repeat None (Z.to_nat n)) with
    | Some r => nodes_v4 int_of float_of fuel sec = Ok r
    | None => rest = [] -> nodes_v4 int_of float_of fuel sec = Err IndexError
    end.
  Proof.
    intros (h & th & bls & -> & Hh & Hth & HF) Hn Hr Hf. unfold nodes_v4, int_at, tok. rewrite py_get_cons0. cbn [bind].
    rewrite (py_get_nth h 3 th) by (try lia; exact Hh). cbn [bind]. rewrite Hth. cbn [bind].
    apply (nodes_loop_read n (h :: List.concat bls ++ rest) blocks [h] bls rest 1); auto.
    assert (R : zlen (repeat (@None F) (Z.to_nat n)) = n) by (unfold zlen; rewrite repeat_length; lia).
    cbn [sized]. now rewrite R.
  Qed.

  Lemma read_until_all n : forall bs cnt xyz, cnt <= n -> (forall b, In b bs -> b = [] -> True) ->
    cnt + zsum (List.map zlen bs) < n -> read_until n cnt bs xyz = None.
  Proof.
    induction bs as [|b bs IH]; intros cnt xyz H _ H2.
    - cbn in H2. cbn [read_until]. replace (cnt <? n) with true by lia. reflexivity.
    - cbn [List.map zsum fold_right] in H2. fold (zsum (List.map zlen bs)) in H2.
      assert (0 <= zsum (List.map zlen bs)).
      { clear. induction bs as [|b bs IH]; cbn; [lia|]. fold (zsum (List.map zlen bs)). pose proof (zlen_nonneg b). lia. }
      pose proof (zlen_nonneg b).
      cbn [read_until]. replace (cnt <? n) with true by lia. apply IH; auto; lia.
  Qed.

  Lemma zsum_lens (bs : list (list (Z * (F * F * F)))) : zsum (List.map zlen bs) = zlen (List.concat bs).
  Proof.
    induction bs as [|b bs IH]; [reflexivity|]. cbn [List.map List.concat]. rewrite zlen_app, <- IH. reflexivity.
  Qed.

  Lemma read_until_pre n : forall pre tail cnt xyz, cnt + zlen (List.concat pre) < n ->
    read_until n cnt (pre ++ tail) xyz =
    read_until n (cnt + zlen (List.concat pre)) tail (fold_left put_node (List.concat pre) xyz).
  Proof.
    induction pre as [|b pre IH]; intros tail cnt xyz H.
    - cbn [List.concat app fold_left]. now rewrite zlen_nil, Z.add_0_r.
    - cbn [List.concat app] in *. rewrite zlen_app in *. pose proof (zlen_nonneg b). pose proof (zlen_nonneg (List.concat pre)).
      cbn [read_until]. replace (cnt <? n) with true by lia. rewrite IH by lia. rewrite fold_left_app.
      f_equal. lia.
  Qed.

  (** When all that is left to read is at most one node. *)
  Lemma read_until_stop n : forall pre tail cnt xyz, cnt + zlen (List.concat pre) = n ->
    read_until n cnt (pre ++ tail) xyz = Some (fold_left put_node (List.concat pre) xyz).
  Proof.
    induction pre as [|b pre IH]; intros tail cnt xyz H.
    - cbn [List.concat app fold_left] in *. rewrite zlen_nil in H.
      destruct tail; cbn [read_until]; replace (cnt <? n) with false by lia; reflexivity.
    - cbn [List.concat app] in *. rewrite zlen_app in H. pose proof (zlen_nonneg b). pose proof (zlen_nonneg (List.concat pre)).
      cbn [read_until]. destruct (Z.ltb_spec cnt n).
      + rewrite IH by lia. now rewrite fold_left_app.
      + destruct b as [|x b]; [|rewrite zlen_cons in *; pose proof (zlen_nonneg b); lia].
        assert (E : List.concat pre = []) by (destruct (List.concat pre) as [|x q]; auto; rewrite zlen_cons in *; pose proof (zlen_nonneg q); lia).
        now rewrite E.
  Qed.

  Lemma put_nodes_other n tag p : forall b xyz, sized n xyz -> ~ In tag (List.map fst b) -> 1 <= tag <= n ->
    (forall nd, In nd b -> 1 <= fst nd <= n) ->
    node_at xyz tag p -> node_at (fold_left put_node b xyz) tag p.
  Proof.
    induction b as [|(t & ((x & y) & z)) b IH]; intros xyz Hs Hni Ht Hr H; auto. cbn [fold_left]. apply IH; auto.
    - destruct xyz as ((X & Y) & Z0). cbn [put_node sized] in *. now rewrite !upd_zlen.
    - intros Hi. apply Hni. right; auto.
    - intros nd Hnd. apply Hr. right; auto.
    - destruct xyz as ((X & Y) & Z0). cbn [put_node node_at] in *. rewrite !nth_error_upd_nat.
      assert (E : Nat.eqb (Z.to_nat (t - 1)) (Z.to_nat (tag - 1)) = false).
      { apply Nat.eqb_neq. intros E. apply Hni. left. cbn [fst].
        assert (1 <= t <= n) by (apply (Hr (t, (x, y, z))); left; auto). lia. }
      now rewrite E.
  Qed.

  Lemma put_nodes_in n : forall b xyz tag p, sized n xyz -> NoDup (List.map fst b) ->
    (forall nd, In nd b -> 1 <= fst nd <= n) -> In (tag, p) b ->
    node_at (fold_left put_node b xyz) tag (Some p).
  Proof.
    induction b as [|(t & ((x & y) & z)) b IH]; intros xyz tag p Hs Hnd Hr Hin; [destruct Hin|].
    cbn [List.map fst] in Hnd. apply NoDup_cons_iff in Hnd. destruct Hnd as [N1 N2]. cbn [fold_left].
    assert (S' : sized n (put_node xyz (t, (x, y, z)))).
    { destruct xyz as ((X & Y) & Z0). cbn [put_node sized] in *. now rewrite !upd_zlen. }
    destruct Hin as [E|Hin].
    - injection E as <- <-. assert (1 <= t <= n) by (apply (Hr (t, (x, y, z))); left; auto).
      apply (put_nodes_other n); auto.
      + intros nd Hn. apply Hr. right; auto.
      + destruct xyz as ((X & Y) & Z0). cbn [put_node node_at sized option_map] in *. rewrite !nth_error_upd_nat.
        rewrite Nat.eqb_refl. destruct Hs as (S1 & S2 & S3). unfold zlen in *.
        assert (T : forall k, Z.of_nat k = n -> Nat.ltb (Z.to_nat (t - 1)) k = true) by (intros; apply Nat.ltb_lt; lia).
        rewrite !T by auto. auto.
    - apply IH; auto. intros nd Hn. apply Hr. right; auto.
  Qed.

  Lemma node_at_none n tag : 1 <= tag <= n ->
    @node_at F (repeat None (Z.to_nat n), repeat None (Z.to_nat n), repeat None (Z.to_nat n)) tag None.
  Proof.
    intros H. cbn [node_at option_map].
    assert (E : nth_error (repeat (@None F) (Z.to_nat n)) (Z.to_nat (tag - 1)) = Some None).
    { apply nth_error_repeat. lia. }
    now rewrite E.
  Qed.

  Lemma put_nodes_sized n : forall b xyz, sized n xyz -> sized n (fold_left put_node b xyz).
  Proof.
    induction b as [|(t & ((x & y) & z)) b IH]; intros xyz Hs; auto. cbn [fold_left]. apply IH.
    destruct xyz as ((X & Y) & Z0). cbn [put_node sized] in *. now rewrite !upd_zlen.
  Qed.

  (** ** Version 4: entities *)

  Lemma entity_get e l : entity_line int_of e l ->
    8 <= zlen l /\ (t <- py_get l 0 ;; int_of t) = Ok (en_tag e) /\ (t <- py_get l 8 ;; int_of t) = Ok (first_group e).
  Proof.
    intros (tt & box & tn & tps & tb & tbs & -> & HB & Ht & Hn & Hp & Hb & Hbs).
    assert (L8 : nth_error (tt :: box ++ tn :: tps ++ tb :: tbs) 8 = nth_error (tps ++ tb :: tbs) 0).
    { do 7 (destruct box as [|? box]; [try discriminate HB|]); [reflexivity|discriminate HB]. }
    split.
    { unfold zlen. cbn [List.length]. rewrite app_length. cbn [List.length]. lia. }
    split.
    { rewrite py_get_cons0. cbn [bind]. exact Ht. }
    unfold first_group. destruct Hp as [|tp p tps ps Hp Hps].
    - rewrite (py_get_nth _ 8 tb); [|lia|exact L8]. cbn [bind]. rewrite Hb. reflexivity.
    - rewrite (py_get_nth _ 8 tp); [|lia|exact L8]. cbn [bind]. exact Hp.
  Qed.

  Lemma find_ent_read entities j : forall es lo,
    (forall k e, nth_error es k = Some e -> exists l, py_get entities (lo + Z.of_nat k) = Ok l /\ entity_line int_of e l) ->
    find_ent_loop int_of entities j (zrange lo (lo + zlen es)) = Ok (found_group es j).
  Proof.
    induction es as [|e es IH]; intros lo H.
    - rewrite zlen_nil, zrange_empty by lia. reflexivity.
    - pose proof (zlen_nonneg es). rewrite zlen_cons, zrange_cons by lia. cbn [find_ent_loop].
      destruct (H 0%nat e eq_refl) as (l & G & L). rewrite Z.add_0_r in G. destruct (entity_get e l L) as (L1 & L2 & L3).
      assert (I0 : int_at int_of entities lo 0 = Ok (en_tag e)).
      { unfold int_at, tok. rewrite G. cbn [bind]. exact L2. }
      assert (I8 : int_at int_of entities lo 8 = Ok (first_group e)).
      { unfold int_at, tok. rewrite G. cbn [bind]. exact L3. }
      rewrite I0. cbn [bind]. rewrite G. cbn [bind]. unfold found_group. cbn [find].
      replace (8 <=? zlen l) with true by lia. rewrite Bool.andb_true_r, Z.eqb_sym.
      destruct (en_tag e =? j); auto. fold (found_group es j).
      replace (lo + (zlen es + 1)) with (lo + 1 + zlen es) by lia. apply IH.
      intros k e' Hk. specialize (H (S k) e' Hk). replace (lo + 1 + Z.of_nat k) with (lo + Z.of_nat (S k)) by lia. auto.
  Qed.

  Lemma find_ent_ok msh points curves lastc surfaces j :
    entities_are int_of msh points (curves ++ [lastc]) surfaces ->
    find_ent int_of msh j = Ok (found_group (lastc :: surfaces) j).
  Proof.
    intros (t0 & t1 & t2 & more & cls & sls & rest & S & H0 & H1 & H2 & Hc & Hs). unfold find_ent.
    rewrite (section_get _ _ _ S). cbn [bind].
    set (E := (t0 :: t1 :: t2 :: more) :: points ++ cls ++ sls ++ rest).
    assert (I0 : int_at int_of E 0 0 = Ok (zlen points)) by exact H0.
    assert (I1 : int_at int_of E 0 1 = Ok (zlen (curves ++ [lastc]))) by exact H1.
    assert (I2 : int_at int_of E 0 2 = Ok (zlen surfaces)) by exact H2.
    rewrite I0, I1, I2. cbn [bind]. rewrite zlen_app, zlen_cons, zlen_nil.
    apply Forall2_app_inv_l in Hc. destruct Hc as (cl1 & cl2 & Hc1 & Hc2 & ->).
    inversion Hc2 as [|? lc ? q Hlc Hq]. subst. inversion Hq. subst. clear Hq Hc2.
    pose proof (Forall2_zlen _ _ _ Hc1) as L1. pose proof (Forall2_zlen _ _ _ Hs) as L2.
    replace (zlen surfaces + (zlen points + (zlen curves + (0 + 1))) + 1)
      with (zlen points + (zlen curves + (0 + 1)) + zlen (lastc :: surfaces)) by (rewrite zlen_cons; lia).
    apply find_ent_read. intros k e Hk.
    assert (X : exists l, nth_error (lc :: sls) k = Some l /\ entity_line int_of e l).
    { destruct k as [|k]; cbn [nth_error] in *.
      - injection Hk as <-. eauto.
      - apply (Forall2_nth _ _ _ _ _ Hs Hk). }
    destruct X as (l & Hl & He). exists l. split; auto.
    replace E with (((t0 :: t1 :: t2 :: more) :: points ++ cl1) ++ (lc :: sls) ++ rest).
    - replace (zlen points + (zlen curves + (0 + 1)) + Z.of_nat k)
        with (zlen ((t0 :: t1 :: t2 :: more) :: points ++ cl1) + Z.of_nat k) by (rewrite zlen_cons, zlen_app; lia).
      apply py_get_app_mid; [lia|]. now rewrite Nat2Z.id.
    - unfold E. cbn [app]. rewrite <- !app_assoc. reflexivity.
  Qed.

  Lemma elts4_read msh group blocks : (forall j, find_ent int_of msh j = Ok (group j)) ->
    elts4_are int_of msh blocks ->
    exists sec, get_section msh "Elements" = Ok sec /\
      elts_v4 int_of msh sec = Ok (List.map felt_line (flat_map (block_elts group) blocks)).
  Proof.
    intros Hg (th & more & bls & rest & S & Hn & H). eexists. split; [apply (section_get _ _ _ S)|].
    unfold elts_v4. assert (I : int_at int_of ((th :: more) :: List.concat bls ++ rest) 0 0 = Ok (zlen blocks)) by exact Hn.
    rewrite I. cbn [bind]. clear I.
    assert (G : forall bs bl A els lo, Forall2 (eblock_lines int_of) bs bl ->
       (th :: more) :: List.concat bls ++ rest = A ++ List.concat bl ++ rest ->
       exists c, foldM (block_step int_of msh ((th :: more) :: List.concat bls ++ rest)) (els, zlen A) (zrange lo (lo + zlen bs)) =
       Ok (els ++ List.map felt_line (flat_map (block_elts group) bs), c)).
    { induction bs as [|b bs IH]; intros bl A els lo HF E.
      - rewrite zlen_nil, zrange_empty by lia. cbn [foldM flat_map List.map]. rewrite app_nil_r. eauto.
      - pose proof (zlen_nonneg bs) as HB0. rewrite zlen_cons, zrange_cons by lia. cbn [foldM].
        inversion HF as [|? ls ? bl' Hb HF' Q1 Q2]. subst.
        destruct Hb as (t0 & t1 & t2 & t3 & mo & lines & -> & H0 & H1 & H2 & H3 & HL).
        assert (G0 : py_get ((th :: more) :: List.concat bls ++ rest) (zlen A) = Ok (t0 :: t1 :: t2 :: t3 :: mo)).
        { rewrite E. replace (zlen A) with (zlen A + 0) by lia. apply py_get_app_mid; [lia|]. reflexivity. }
        assert (Hmap : mapM (fun j => l <- py_get ((th :: more) :: List.concat bls ++ rest) j ;; elt <- mapM int_of l ;;
                               Ok (insert_tags elt (eb_type b) (group (eb_ent b)) (eb_ent b)))
                  (zrange (zlen A + 1) (zlen A + zlen (eb_elts b) + 1)) = Ok (List.map felt_line (block_elts group b))).
        { replace (zlen A + zlen (eb_elts b) + 1) with (zlen A + 1 + zlen (eb_elts b)) by lia.
          rewrite (mapM_lines _ (eb_elts b) (fun e => felt_line (FElt (fst e) (eb_type b) (group (eb_ent b)) (eb_ent b) [] (snd e)))).
          - unfold block_elts. now rewrite map_map.
          - intros k e Hk. destruct (Forall2_nth _ _ _ _ _ HL Hk) as (l & Hl & HT).
            assert (G1 : py_get ((th :: more) :: List.concat bls ++ rest) (zlen A + 1 + Z.of_nat k) = Ok l).
            { rewrite E. replace (zlen A + 1 + Z.of_nat k) with (zlen A + (1 + Z.of_nat k)) by lia.
              apply py_get_app_mid; [lia|]. replace (Z.to_nat (1 + Z.of_nat k)) with (Datatypes.S k) by lia. cbn [List.concat nth_error app].
              rewrite nth_error_app1; auto. apply nth_error_Some. congruence. }
            rewrite G1. cbn [bind]. rewrite (mapM_tokens _ _ _ HT). reflexivity. }
        unfold block_step at 1. unfold int_at, tok. rewrite G0. cbn [bind].
        change (py_get (t0 :: t1 :: t2 :: t3 :: mo) 2) with (Ok t2). change (py_get (t0 :: t1 :: t2 :: t3 :: mo) 1) with (Ok t1).
        change (py_get (t0 :: t1 :: t2 :: t3 :: mo) 3) with (Ok t3). cbn [bind].
        rewrite H2. cbn [bind]. rewrite H1. cbn [bind]. rewrite Hg. cbn [bind]. rewrite H3. cbn [bind].
        rewrite Hmap. cbn [bind].
        pose proof (Forall2_zlen _ _ _ HL) as LL.
        destruct (IH bl' (A ++ (t0 :: t1 :: t2 :: t3 :: mo) :: lines) (els ++ List.map felt_line (block_elts group b)) (lo + 1) HF') as (c & IH').
        { rewrite E. cbn [List.concat]. rewrite <- !app_assoc. reflexivity. }
        exists c. rewrite zlen_app, zlen_cons in IH'. rewrite LL.
        replace (lo + (zlen bs + 1)) with (lo + 1 + zlen bs) by lia. rewrite IH'.
        cbn [flat_map]. rewrite map_app, <- app_assoc. reflexivity. }
    destruct (G blocks bls [th :: more] [] 0 H eq_refl) as (c & R).
    change (zlen [th :: more]) with 1 in R. rewrite Z.add_0_l in R. rewrite R. reflexivity.
  Qed.

  Lemma v4_read msh v fuel names n blocks rest group eblocks xyz :
    format_is int_of ver_of msh v -> 4 <= v -> names_are int_of msh names ->
    nodes4_are int_of float_of msh n blocks rest -> 0 <= n ->
    (forall b nd, In b blocks -> In nd b -> 1 <= fst nd <= n) -> (List.length blocks < fuel)%nat ->
    read_until n 1 blocks (repeat None (Z.to_nat n), repeat None (Z.to_nat n), repeat None (Z.to_nat n)) = Some xyz ->
    (forall j, find_ent int_of msh j = Ok (group j)) -> elts4_are int_of msh eblocks ->
    read_sections int_of float_of ver_of fuel msh =
    Ok (option_map fam_table names, xyz, List.map felt_line (flat_map (block_elts group) eblocks)).
  Proof.
    intros Hf Hv Hn (sec & Hsec & Hc) Hn0 Hr Hfu Hu Hg He. rewrite (format_read msh v) by auto.
    replace (v <=? 2) with false by lia. replace (4 <=? v) with true by lia.
    unfold read_v4. rewrite (names_read _ _ Hn). cbn [bind]. rewrite (section_get _ _ _ Hsec). cbn [bind].
    pose proof (nodes4_read sec n blocks rest fuel Hc Hn0 Hr Hfu) as N. rewrite Hu in N. rewrite N. cbn [bind].
    destruct (elts4_read _ _ _ Hg He) as (s2 & S2 & R2). rewrite S2. cbn [bind]. rewrite R2. reflexivity.
  Qed.
End Read.
