(** * What the reader finds in a written file. *)
From Coq Require Import ZArith List Bool String Lia.
From Verif Require Import Py PyFacts ConnSpec CsrProofs Ic3Bytes Ic3BytesProofs Ic3 Ic3HeaderSpec Ic3HeaderProofs Ic3FuelProofs Ic3FileSpec Ic3FileProofs Ic3WriteProofs Ic3PartsProofs Ic3CutProofs Ic3BodyProofs.

(** ** Blocks *)
Lemma load_size_app l1 l2 : load_size (l1 ++ l2) = load_size l1 + load_size l2.
Proof. unfold load_size. rewrite map_app, zsum_app. reflexivity. Qed.
Lemma load_size_nonneg l : 0 <= load_size l.
Proof.
  unfold load_size. induction l as [| ((c, n), vals) l IH]; [cbn; lia |].
  cbn [List.map zsum fold_right]. fold (zsum (List.map (fun '(c0, n0, _) => Z.of_nat (code_size c0) * Z.max 0 n0) l)).
  assert (0 <= Z.of_nat (code_size c) * Z.max 0 n) by (apply Z.mul_nonneg_nonneg; lia). lia.
Qed.

Lemma read_load o s sf pre post l1 c n vals l2 : sec_wf s -> wrote o s sf -> snd s = l1 ++ (c, n, vals) :: l2 -> 0 <= n ->
  binary_read (pre ++ fsec_all sf ++ post) o c n (zlen pre + 256 + load_size l1)
  = Ok (Some vals, zlen pre + 256 + load_size l1 + Z.of_nat (code_size c) * n).
Proof.
  intros (HA & SK & PT) (OK & HE & PK & ps & MP & LD) E N. rewrite E in MP, PT, SK. rewrite mapM_app in MP.
  apply bind_ok in MP; destruct MP as (p1 & M1 & MP). apply bind_ok in MP; destruct MP as (p2 & M2 & MP). inversion MP; subst ps; clear MP.
  cbn [mapM] in M2. apply bind_ok in M2; destruct M2 as (p & W & M2). apply bind_ok in M2; destruct M2 as (p3 & M3 & M2). inversion M2; subst p2; clear M2.
  assert (L1 := loads_len _ _ _ M1). destruct OK as ((LB & _) & _).
  replace (pre ++ fsec_all sf ++ post) with ((pre ++ s_bytes sf ++ List.concat p1) ++ p ++ (List.concat p3 ++ post)).
  2: { unfold fsec_all. rewrite LD, concat_app. cbn [List.concat]. rewrite <- !app_assoc. reflexivity. }
  replace (zlen pre + 256 + load_size l1) with (zlen (pre ++ s_bytes sf ++ List.concat p1)) by (rewrite !zlen_app; lia).
  assert (WO := binary_write_ok _ _ _ _ _ W). destruct WO as (_ & LP & _).
  rewrite (read_block o c n vals p); [| exact W | exact N | |].
  - rewrite LP, Z.max_r by exact N. reflexivity.
  - apply Forall_app in PT. destruct PT as (_ & PT). inversion PT; subst. assumption.
  - destruct PK as (_ & _ & (_ & SK2) & _). rewrite SK in SK2. rewrite load_size_app in SK2.
    unfold load_size in SK2 at 2. cbn [List.map zsum fold_right] in SK2. rewrite Z.max_r in SK2 by exact N.
    assert (Q := load_size_nonneg l1). assert (Q2 := load_size_nonneg l2). unfold load_size in Q2 at 1. unfold zsum in Q2. lia.
Qed.
Lemma fsec_len o s sf : sec_wf s -> wrote o s sf -> zlen (fsec_all sf) = 256 + load_size (snd s).
Proof.
  intros (_ & SK & _) (((LB & _) & S2) & HE & _). unfold fsec_all. rewrite zlen_app, LB.
  rewrite HE in S2. cbn [cut_header h_skip] in S2. lia.
Qed.
(** A section with one block. *)
Lemma read_load1 o s sf pre post c n vals : sec_wf s -> wrote o s sf -> snd s = [(c, n, vals)] -> 0 <= n ->
  binary_read (pre ++ fsec_all sf ++ post) o c n (zlen pre + 256) = Ok (Some vals, zlen (pre ++ fsec_all sf)) /\ zlen vals = n.
Proof.
  intros WF W E N. assert (Q := read_load o s sf pre post [] c n vals [] WF W E N).
  change (load_size []) with 0 in Q. rewrite Z.add_0_r in Q. rewrite Q. split.
  - rewrite zlen_app, (fsec_len o s sf WF W), E. unfold load_size. cbn [List.map zsum fold_right]. rewrite Z.max_r by exact N.
    do 2 f_equal. lia.
  - destruct W as (_ & _ & _ & ps & MP & _). rewrite E in MP. cbn [mapM] in MP. apply bind_ok in MP; destruct MP as (p & W & _).
    apply binary_write_ok in W. lia.
Qed.

(** ** Filters *)
Lemma filter_all {A} (g : A -> bool) l : Forall (fun x => g x = true) l -> filter g l = l.
Proof. induction 1 as [| x l X _ IH]; [reflexivity |]. cbn. rewrite X, IH. reflexivity. Qed.
Lemma filter_none {A} (g : A -> bool) l : Forall (fun x => g x = false) l -> filter g l = [].
Proof. induction 1 as [| x l X _ IH]; [reflexivity |]. cbn. rewrite X, IH. reflexivity. Qed.

(** ** The fold of total steps *)
Lemma foldM_total {A S} (g : S -> A -> S) l : forall s, foldM (fun s a => Ok (g s a)) s l = Ok (fold_left g l s).
Proof. induction l as [| a l IH]; intros s; [reflexivity |]. cbn [foldM fold_left bind]. apply IH. Qed.

(** ** Expected results *)
Definition pad16 (l : list Z) : list Z := l ++ repeat 0 (16 - List.length l).
Definition perio_of (b : mark Z) : list Z := match mk_perio b with Some (Some l) => l | _ => [] end.
(** A mark as the reader gives it back. *)
Definition mark_back (kb : string * mark Z) : mark Z :=
  Mark Z (cut_name (fst kb)) (Some Gbdface) (mk_type (snd kb)) (mk_index (snd kb)) (Some (Some (pad16 (perio_of (snd kb))))).
Definition int_mark (lo hi : Z) : mark Z :=
  Mark Z "internal-domain" (Some Gintface) (Some "internal"%string) (Some (ILrange lo hi)) (Some (Some (repeat 0 16))).

(** Zone kinds are numbered without collision. *)
Lemma kind_type t kind : dget String.eqb t zonekinds = Some kind ->
  dget_err Z.eqb kind zonetypes = Ok t /\ (kind = 6 <-> t = "internal"%string).
Proof.
  unfold zonekinds. cbn [dget].
  repeat (match goal with |- context [String.eqb t ?x] => destruct (String.eqb_spec t x); [intros H; inversion H; subst; split; [reflexivity | split; [congruence || reflexivity | congruence || reflexivity]] |] end).
  discriminate.
Qed.

Lemma read_zone_back z kind lo hi key t r x : dget String.eqb t zonekinds = Some kind -> py_get (z_index z) lo = Ok x ->
  read_zone z (cut_header (fst (sec0 key FA_ZONE [kind; lo; hi] r)))
  = Ok (Mark Z (cut_name key) (Some (if String.eqb t "internal" then Gintface else Gbdface)) (Some t)
          (Some (ILrange lo hi)) (Some (Some (pad16 r)))).
Proof.
  intros K X. apply kind_type in K. destruct K as (K & _). unfold read_zone.
  change (idata (cut_header (fst (sec0 key FA_ZONE [kind; lo; hi] r))) 0) with kind.
  change (idata (cut_header (fst (sec0 key FA_ZONE [kind; lo; hi] r))) 1) with lo.
  rewrite K. cbn [bind]. rewrite X. reflexivity.
Qed.

Lemma read_zones_back o z f : forall bocos zs zfs, Forall2 (fun kb s => zone_section kb = Ok s) bocos zs ->
  Forall2 (wrote o) zs zfs -> forall si fi pre post k lo hi x,
  f = pre ++ secs_bytes zfs ++ fsec_all fi ++ post -> wrote o si fi -> si = sec0 "internal-domain" FA_ZONE [6; lo; hi] [] ->
  py_get (z_index z) lo = Ok x ->
  Forall (fun '(key, b) => ~ deof key /\ mk_type b <> Some "internal"%string /\
                          forall l h, mk_index b = Some (ILrange l h) -> exists y, py_get (z_index z) l = Ok y) bocos ->
  (List.length bocos < k)%nat ->
  read_zones k f o z (zlen pre) = Ok (List.map mark_back bocos ++ [int_mark lo hi]).
Proof.
  induction bocos as [| (key, b) bocos IH]; intros zs zfs HZ HW si fi pre post k lo hi x E WI SI X C K; inversion HZ; subst; inversion HW; subst.
  - destruct k as [| k]; [cbn in K; lia |]. cbn [read_zones].
    match goal with |- context [read_var _ ?F _ _ _ _] => change (read_var (fuel_of F) F o [FA_ZONE] 0 (zlen pre)) with (read_at F o [FA_ZONE] (zlen pre)) end.
    change (secs_bytes []) with (@nil Z). cbn [app].
    rewrite at_hit; [| exact (proj1 WI) | |].
    2: { intros D. apply (wrote_deof _ _ _ WI) in D. discriminate D. }
    2: { rewrite (wrote_id _ _ _ WI). left. reflexivity. }
    cbn [bind]. destruct WI as (_ & -> & _). rewrite (read_zone_back z 6 lo hi _ "internal" [] x); [| reflexivity | exact X].
    reflexivity.
  - destruct k as [| k]; [cbn in K; lia |]. cbn [List.length] in K. cbn [read_zones].
    set (f := pre ++ secs_bytes (y0 :: l'0) ++ fsec_all fi ++ post) in *.
    change (read_var (fuel_of f) f o [FA_ZONE] 0 (zlen pre)) with (read_at f o [FA_ZONE] (zlen pre)).
    rename y0 into zf. rename l'0 into zfs'. rename y into zs0. rename l' into zs'.
    assert (EF : f = pre ++ fsec_all zf ++ (secs_bytes zfs' ++ fsec_all fi ++ post)) by (unfold f; rewrite secs_cons, <- !app_assoc; reflexivity).
    inversion C as [| ? ? C0 C']; subst. destruct C0 as (C1 & C2 & C3).
    match goal with H : zone_section _ = Ok _ |- _ => apply zone_section_ok in H; destruct H as (t & kind & l & h & E1 & E2 & E3 & E4 & _ & -> & _) end.
    match goal with H : wrote o _ zf |- _ => rename H into WZ end.
    replace (read_at f o [FA_ZONE] (zlen pre)) with (@Ok (option header * Z) (Some (s_hdr zf), zlen pre + 256)).
    2: { symmetry. rewrite EF. apply at_hit; [exact (proj1 WZ) | |].
         - intros D. apply (wrote_deof _ _ _ WZ) in D. exact (C1 D).
         - rewrite (wrote_id _ _ _ WZ). left. reflexivity. }
    cbn [bind]. assert (WZ' := WZ). destruct WZ' as (OZ & HZ' & _ & ps & MP & LD). rewrite HZ'.
    destruct (C3 l h E4) as (y & Y).
    rewrite (read_zone_back z kind l h key t _ y E3 Y). cbn [bind].
    change (idata (cut_header (fst (sec0 key FA_ZONE [kind; l; h] (match mk_perio b with Some (Some l0) => l0 | _ => [] end)))) 0) with kind.
    replace (kind =? 6) with false.
    2: { symmetry. apply Z.eqb_neq. intros Q. apply (kind_type t kind E3) in Q. apply C2. rewrite E2, Q. reflexivity. }
    assert (PZ : zlen pre + 256 = zlen (pre ++ fsec_all zf)).
    { rewrite zlen_app. unfold fsec_all. cbn in MP. inversion MP; subst ps. rewrite LD. cbn [List.concat]. rewrite app_nil_r. destruct OZ as ((-> & _) & _). reflexivity. }
    rewrite PZ. assert (EF2 : f = (pre ++ fsec_all zf) ++ secs_bytes zfs' ++ fsec_all fi ++ post) by (rewrite EF, <- !app_assoc; reflexivity).
    rewrite (IH zs' zfs' ltac:(assumption) ltac:(assumption) _ fi (pre ++ fsec_all zf) post k lo hi x EF2 WI eq_refl X C' ltac:(lia)).
    cbn [bind List.map app].
    change (mark_back (key, b)) with (Mark Z (cut_name key) (Some Gbdface) (mk_type b) (mk_index b) (Some (Some (pad16 (perio_of b))))).
    rewrite E2, E4.
    replace (String.eqb t "internal") with false; [reflexivity |].
    symmetry. apply String.eqb_neq. intros ->. apply C2. exact E2.
Qed.
