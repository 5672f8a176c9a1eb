(** * Property C53 (lengths of spectra). *)
From Coq Require Import Lia List.
From Verif Require Import Py PyFacts Spectrum.

(** ** Facts *)
Lemma zlen_slice {A} (l : list A) a b : zlen (py_slice l a b) = Z.max 0 (slice_bound (zlen l) b - slice_bound (zlen l) a).
Proof.
  unfold py_slice, zlen. rewrite firstn_length, skipn_length. set (n := Z.of_nat (List.length l)). assert (0 <= n) by (unfold n; lia).
  assert (B : forall i, 0 <= slice_bound n i <= n) by (intros i; unfold slice_bound; lia). assert (Ba := B a). assert (Bb := B b). fold n. unfold n in *. lia.
Qed.
Lemma sets_ok {V} (h : string -> res V) step (names : list string) : (forall d name, step d name = (v <- h name ;; Ok (dset String.eqb name v d))) ->
  forall d0 d, foldM step d0 names = Ok d ->
  (forall name, In name names -> exists v, h name = Ok v /\ dget String.eqb name d = Some v) /\ (forall name, ~ In name names -> dget String.eqb name d = dget String.eqb name d0).
Proof.
  intros ST. induction names as [| n names IH]; intros d0 d H; [injection H as <-; split; [intros x [] | auto] |]. cbn [foldM] in H. rewrite ST in H. apply bind_ok in H. destruct H as (d1 & H1 & H). apply bind_ok in H1. destruct H1 as (v & Hv & H1). injection H1 as <-.
  destruct (IH _ _ H) as (I1 & I2). split.
  - intros x [<- | I]; [| exact (I1 x I)]. destruct (in_dec string_dec n names) as [I | I]; [exact (I1 n I) |]. exists v. split; [exact Hv |]. rewrite (I2 n I). apply (dget_dset_eq _ String.eqb_eq).
  - intros x NI. rewrite (I2 x) by (intros I; apply NI; right; exact I). apply (dget_dset_neq _ String.eqb_eq). intros ->. apply NI. left. reflexivity.
Qed.
Lemma sets_total {V} (h : string -> res V) step (names : list string) : (forall d name, step d name = (v <- h name ;; Ok (dset String.eqb name v d))) ->
  (forall name, In name names -> is_ok (h name) = true) -> forall d0, exists d, foldM step d0 names = Ok d.
Proof.
  intros ST. induction names as [| n names IH]; intros OK d0; [eexists; reflexivity |]. cbn [foldM]. rewrite ST. assert (O := OK n (or_introl eq_refl)). destruct (h n); [| discriminate]. cbn [bind]. apply IH. intros x I. apply OK. right. exact I.
Qed.
Lemma sets_err {V} (h : string -> res V) step (n : string) names e : (forall d name, step d name = (v <- h name ;; Ok (dset String.eqb name v d))) ->
  h n = Err e -> forall d0, foldM step d0 (n :: names) = Err e.
Proof. intros ST H d0. cbn [foldM]. rewrite ST, H. reflexivity. Qed.
Lemma remove_in x l l' : py_remove x l = Ok l' -> In x l /\ (forall y, y <> x -> (In y l <-> In y l')).
Proof.
  revert l'. induction l as [| z l IH]; intros l' H; [discriminate |]. cbn in H. destruct (String.eqb x z) eqn:E.
  - injection H as <-. apply String.eqb_eq in E. subst z. split; [left; reflexivity |]. intros y N. cbn. intuition congruence.
  - apply bind_ok in H. destruct H as (q & Hq & H). injection H as <-. destruct (IH q Hq) as (I1 & I2). split; [right; exact I1 |]. intros y N. cbn. rewrite (I2 y N). reflexivity.
Qed.
Lemma remove_total x l : In x l <-> exists l', py_remove x l = Ok l'.
Proof.
  split; [| intros (l' & H); exact (proj1 (remove_in _ _ _ H))]. induction l as [| z l IH]; intros I; [destruct I |]. cbn. destruct (String.eqb x z) eqn:E; [eexists; reflexivity |].
  destruct I as [-> | I]; [rewrite String.eqb_refl in E; discriminate |]. destruct (IH I) as (l' & ->). eexists. reflexivity.
Qed.

Lemma mapM_one_err {A B} (f : A -> res B) l (a : A) e : (forall x, In x l -> (exists b, f x = Ok b) \/ f x = Err e) -> In a l -> f a = Err e -> mapM f l = Err e.
Proof.
  intros H I E. induction l as [| y l IH]; [destruct I |]. cbn. destruct (H y (or_introl eq_refl)) as [(b & Hb) | Hy]; [| rewrite Hy; reflexivity]. rewrite Hb. cbn.
  destruct I as [-> | I]; [congruence |]. rewrite IH; [reflexivity | intros x J; apply H; right; exact J | exact I].
Qed.
Lemma mapM_rows {A} (f : Z -> res (list A)) k m : 0 <= k -> (forall i, 0 <= i < k -> exists r, f i = Ok r /\ zlen r = m) -> exists rows, mapM f (zrange 0 k) = Ok rows /\ zlen rows = k /\ Forall (fun r => zlen r = m) rows.
Proof.
  intros K H. assert (G : forall l, (forall i, In i l -> exists r, f i = Ok r /\ zlen r = m) -> exists rows, mapM f l = Ok rows /\ zlen rows = zlen l /\ Forall (fun r => zlen r = m) rows).
  { induction l as [| i l IH]; intros HL; [exists []; cbn; auto |]. destruct (HL i (or_introl eq_refl)) as (r & R1 & R2). destruct IH as (rows & Q1 & Q2 & Q3); [intros j J; apply HL; right; exact J |]. exists (r :: rows). split; [cbn; rewrite R1; cbn; rewrite Q1; reflexivity |]. rewrite !zlen_cons. split; [lia |]. constructor; assumption. }
  destruct (G (zrange 0 k)) as (rows & Q1 & Q2 & Q3); [intros i I; apply in_zrange in I; apply H; lia |]. exists rows. rewrite zlen_zrange in Q2 by lia. split; [exact Q1 |]. split; [lia | exact Q3].
Qed.

Section Facts.
  Context {F : Type}.
  (** The names a call works on, and a data set in time with its times. *)
  Definition asked (s : signals (F := F)) (flt : option (list string)) : list string := match flt with Some (n :: l) => n :: l | _ => dkeys (sg_data s) end.
  Definition in_time (s : signals (F := F)) (t : list F) : Prop := sg_trep s = "timeevol"%string /\ dget String.eqb "time"%string (sg_data s) = Some t.

  Lemma dtstats_ok (s : signals (F := F)) a b t : dtstats s a b = Ok t <-> exists t0, in_time s t0 /\ t = slice_opt t0 a b.
  Proof.
    unfold dtstats, in_time. split.
    - destruct (dget String.eqb "time"%string (sg_data s)) as [t0 |]; [| discriminate]. destruct (String.eqb (sg_trep s) "timeevol") eqn:E; [| discriminate]. intros H. injection H as <-. exists t0. apply String.eqb_eq in E. auto.
    - intros (t0 & (E & D) & ->). rewrite D, E. reflexivity.
  Qed.
  Lemma slice_all (t : list F) : slice_opt t None None = t.
  Proof. unfold slice_opt. assert (H := py_slice_mid [] t []). rewrite app_nil_r in H. cbn [app] in H. exact H. Qed.

  Lemma part_whole (t : list F) a b : 0 <= a -> zlen (firstn (Z.to_nat (b - a)) (skipn (Z.to_nat a) t)) = zlen t -> firstn (Z.to_nat (b - a)) (skipn (Z.to_nat a) t) = t.
  Proof.
    intros A0 E. unfold zlen in E. rewrite firstn_length, skipn_length in E. destruct t as [| t1 t]; [rewrite skipn_nil, firstn_nil; reflexivity |]. assert (a = 0) by (cbn [List.length] in E; lia). subst a. cbn [Z.to_nat skipn] in *. apply firstn_all2. lia.
  Qed.
  Lemma slice_whole (t : list F) imin imax : zlen (slice_opt t imin imax) = zlen t -> slice_opt t imin imax = t.
  Proof. unfold slice_opt, py_slice. apply part_whole. unfold slice_bound. lia. Qed.

End Facts.

Section Spectrum.
  Context {F : Type} (freqs : Z -> list F -> list F) (absfft : list F -> list F).
  (** The lengths numpy documents. *)
  Hypothesis freqs_len : forall n t, 0 <= n -> zlen (freqs n t) = n.
  Hypothesis absfft_len : forall x, zlen (absfft x) = zlen x.

  Let spec := spectrum freqs absfft.
  (** ** Spectrum *)
  (** C53: the spectrum exists exactly when the data set is an evolution with times, 'time' is among the
      names and all the others are stored, non-empty signals.  Every signal keeps its length; the frequency
      axis is as long as the selected times (unless a signal is itself called 'freq'). *)
  Theorem C53_spectrum s flt imin imax d : spec s flt imin imax = Ok d ->
    exists t, in_time s t /\ In "time"%string (asked s flt) /\
    (forall name, In name (asked s flt) -> name <> "time"%string -> exists x v, dget String.eqb name (sg_data s) = Some x /\ dget String.eqb name d = Some (A1 v) /\ zlen v = zlen x) /\
    (~ In "freq"%string (asked s flt) -> exists f, dget String.eqb "freq"%string d = Some (A1 f) /\ zlen f = zlen (slice_opt t imin imax)).
  Proof using freqs_len absfft_len.
    intros H. unfold spec, spectrum in H. apply bind_ok in H. destruct H as (t & Ht & H). apply bind_ok in H. destruct H as (f & Hf & H). apply bind_ok in H. destruct H as (names & Hn & H).
    apply dtstats_ok in Ht. destruct Ht as (t0 & IT & ->). exists t0. split; [exact IT |]. destruct (remove_in _ _ _ Hn) as (R1 & R2). split; [exact R1 |].
    set (h := fun name => x <- dget_err String.eqb name (sg_data s) ;; v <- np_fft absfft x ;; Ok (A1 v)).
    destruct (sets_ok h (fun (d : dict string arr) (name : string) => x <- dget_err String.eqb name (sg_data s) ;; v <- np_fft absfft x ;; Ok (dset String.eqb name (A1 v) d)) names) with (d0 := [("freq"%string, A1 f)]) (d := d) as (S1 & S2).
    { intros d' name. unfold h. destruct (dget_err String.eqb name (sg_data s)); [| reflexivity]. cbn [bind]. destruct (np_fft absfft a); reflexivity. }
    { exact H. }
    split.
    - intros name I NT. apply (R2 name NT) in I. destruct (S1 name I) as (v & Hv & D). unfold h in Hv. apply bind_ok in Hv. destruct Hv as (x & Hx & Hv). apply bind_ok in Hv. destruct Hv as (w & Hw & Hv). injection Hv as <-.
      exists x, w. unfold dget_err in Hx. destruct (dget String.eqb name (sg_data s)) as [x' |]; [| discriminate]. injection Hx as ->. split; [reflexivity |]. split; [exact D |]. unfold np_fft in Hw. destruct x as [| x1 x]; [discriminate |]. injection Hw as <-. apply absfft_len.
    - intros NF. exists f. rewrite S2; [| intros I; apply NF; apply R2; [discriminate | exact I]]. split; [reflexivity |]. unfold np_fftfreq in Hf. destruct (_ <? 0) eqn:E; [discriminate |]. injection Hf as <-. apply freqs_len. lia.
  Qed.
  Theorem C53_spectrum_exists s flt imin imax t names : in_time s t -> asked s flt = "time"%string :: names ->
    (is_ok (spec s flt imin imax) = true <-> forall name, In name names -> exists x, dget String.eqb name (sg_data s) = Some x /\ x <> []).
  Proof.
    intros IT AS. unfold spec, spectrum. rewrite (proj2 (dtstats_ok s imin imax (slice_opt t imin imax))) by eauto. cbn [bind]. unfold np_fftfreq. destruct (_ <? 0) eqn:E; [pose proof (zlen_nonneg (slice_opt t imin imax)); lia |]. cbn [bind].
    change (datalist s flt) with (asked s flt). rewrite AS. cbn [py_remove]. rewrite String.eqb_refl. cbn [bind].
    set (step := fun (d : dict string arr) (name : string) => x <- dget_err String.eqb name (sg_data s) ;; v <- np_fft absfft x ;; Ok (dset String.eqb name (A1 v) d)).
    set (h := fun name => x <- dget_err String.eqb name (sg_data s) ;; v <- np_fft absfft x ;; Ok (A1 v)).
    assert (ST : forall d name, step d name = (v <- h name ;; Ok (dset String.eqb name v d))). { intros d' name. unfold step, h. destruct (dget_err String.eqb name (sg_data s)); [| reflexivity]. cbn [bind]. destruct (np_fft absfft a); reflexivity. }
    assert (HO : forall name, is_ok (h name) = true <-> exists x, dget String.eqb name (sg_data s) = Some x /\ x <> []).
    { intros name. unfold h, dget_err. destruct (dget String.eqb name (sg_data s)) as [[| x1 x] |]; cbn; split; intros H; try discriminate; try reflexivity; [destruct H as (y & HY & N); injection HY as <-; contradiction | eexists; split; [reflexivity | discriminate] | destruct H as (y & HY & _); discriminate]. }
    split.
    - intros O name I. apply HO. destruct (foldM step _ names) as [d |] eqn:FM; [| discriminate]. destruct (proj1 (sets_ok h step names ST _ _ FM) name I) as (v & -> & _). reflexivity.
    - intros A. destruct (sets_total h step names ST (fun name I => proj2 (HO name) (A name I)) [("freq"%string, A1 (freqs (zlen (slice_opt t imin imax)) (slice_opt t imin imax)))]) as (d & ->). reflexivity.
  Qed.
  (** All signals as long as the times: without a range every array of the spectrum has that length; with
      a range the axis has only the selected length while the data keep theirs. *)
  Theorem C53_spectrum_consistent s d t : spec s None None None = Ok d -> in_time s t -> ~ In "freq"%string (dkeys (sg_data s)) -> Forall (fun '(_, x) => zlen x = zlen t) (sg_data s) -> NoDup (dkeys (sg_data s)) ->
    forall name, In name (dkeys (sg_data s)) -> name <> "time"%string ->
    exists f v, dget String.eqb "freq"%string d = Some (A1 f) /\ dget String.eqb name d = Some (A1 v) /\ zlen f = zlen t /\ zlen v = zlen f.
  Proof using freqs_len absfft_len.
    intros H (IT1 & IT2) NF AL ND name I NT. destruct (C53_spectrum _ _ _ _ _ H) as (t' & (_ & IT2') & _ & S1 & S2). rewrite IT2 in IT2'. injection IT2' as <-. destruct (S2 NF) as (f & D1 & L1). destruct (S1 name I NT) as (x & v & D2 & D3 & L2).
    exists f, v. split; [exact D1 |]. split; [exact D3 |]. rewrite slice_all in L1. split; [exact L1 |]. rewrite Forall_forall in AL. apply (dget_in _ String.eqb_eq) in D2. specialize (AL _ D2). cbn in AL. lia.
  Qed.
  Theorem C53_spectrum_range s flt imin imax d t name f v x : spec s flt imin imax = Ok d -> in_time s t -> ~ In "freq"%string (asked s flt) -> In name (asked s flt) -> name <> "time"%string ->
    dget String.eqb name (sg_data s) = Some x -> zlen x = zlen t -> dget String.eqb "freq"%string d = Some (A1 f) -> dget String.eqb name d = Some (A1 v) ->
    (zlen f = zlen v <-> slice_opt t imin imax = t).
  Proof using freqs_len absfft_len.
    intros H (IT1 & IT2) NF I NT Dx Lx Df Dv. destruct (C53_spectrum _ _ _ _ _ H) as (t' & (_ & IT2') & _ & S1 & S2). rewrite IT2 in IT2'. injection IT2' as <-. destruct (S2 NF) as (f' & D1 & L1). destruct (S1 name I NT) as (x' & v' & D2 & D3 & L2).
    rewrite D1 in Df. injection Df as ->. rewrite D3 in Dv. injection Dv as ->. rewrite D2 in Dx. injection Dx as ->. rewrite L1, L2, Lx. split; [| intros ->; reflexivity].
    apply slice_whole.
  Qed.
  (** The list of names given by the caller loses its entry 'time'. *)
  Theorem C53_filter_changed (s : signals (F := F)) l1 l2 imin imax t : in_time s t -> ~ In "time"%string l1 -> spectrum_filter s (l1 ++ "time"%string :: l2) imin imax = l1 ++ l2.
  Proof.
    intros IT N. unfold spectrum_filter. rewrite (proj2 (dtstats_ok s imin imax (slice_opt t imin imax))) by eauto.
    assert (R : py_remove "time"%string (l1 ++ "time"%string :: l2) = Ok (l1 ++ l2)).
    { clear -N. induction l1 as [| a l1 IH]; [reflexivity |]. cbn -[String.eqb]. destruct (String.eqb "time" a) eqn:E; [apply String.eqb_eq in E; exfalso; apply N; left; congruence |]. rewrite IH; [reflexivity |]. intros I. apply N. right. exact I. }
    rewrite R. destruct l1; reflexivity.
  Qed.

  (** Names without 'time' are refused, and the caller's list is left as it was. *)
  Theorem C53_no_time (s : signals (F := F)) flt t logrfft fmul hanning : ~ In "time"%string (asked s flt) ->
    (in_time s t -> forall imin imax, spec s flt imin imax = Err ValueError) /\
    (forall window, spectrogram freqs logrfft fmul hanning s flt window = Err ValueError) /\
    (forall l imin imax, flt = Some l -> spectrum_filter s l imin imax = l).
  Proof.
    intros N. assert (R : py_remove "time"%string (asked s flt) = Err ValueError).
    { induction (asked s flt) as [| y l IH]; [reflexivity |]. cbn [py_remove]. destruct (String.eqb "time" y) eqn:E; [apply String.eqb_eq in E; subst y; destruct N; left; reflexivity |]. rewrite IH; [reflexivity |]. intros I. apply N. right. exact I. }
    split; [| split].
    - intros IT imin imax. unfold spec, spectrum. rewrite (proj2 (dtstats_ok s imin imax (slice_opt t imin imax))) by eauto. cbn [bind]. unfold np_fftfreq. destruct (_ <? 0) eqn:E; [reflexivity |]. cbn [bind].
      change (datalist s flt) with (asked s flt). rewrite R. reflexivity.
    - intros window. unfold spectrogram. change (datalist s flt) with (asked s flt). rewrite R. reflexivity.
    - intros l imin imax ->. unfold spectrum_filter. destruct l as [| y l]; [reflexivity |]. cbn [asked] in R. rewrite R. destruct (dtstats s imin imax); reflexivity.
  Qed.

End Spectrum.

(** ** Spectrogram *)
Section Gram.
  Context {F : Type} (freqs : Z -> list F -> list F) (logrfft : list F -> list F) (fmul : F -> F -> F) (hanning : Z -> list F).
  Hypothesis freqs_len : forall n t, 0 <= n -> zlen (freqs n t) = n.
  Hypothesis logrfft_len : forall x, zlen (logrfft x) = zlen x / 2 + 1.
  Hypothesis hanning_len : forall n, 0 <= n -> zlen (hanning n) = n.
  Let gram := spectrogram freqs logrfft fmul hanning.
  Lemma every_len k (t : list F) : 0 < k -> exists q, every k t = Ok q /\ zlen q = Z.max 0 ((zlen t - 1) / k).
  Proof.
    intros K. unfold every. destruct (k =? 0) eqn:E; [lia |]. pose proof (zlen_nonneg t).
    assert (T : exists q, np_take t (List.map (fun i => k * i) (zrange 1 ((zlen t - 1) / k + 1))) = Ok q).
    { unfold np_take. assert (A : forall l, (forall i, In i l -> 0 <= i < zlen t) -> exists q, mapM (py_get t) l = Ok q).
      { induction l as [| i l IH]; intros B; [eexists; reflexivity |]. cbn. assert (Bi := B i (or_introl eq_refl)). destruct (py_get_total t i) as (y & ->); [lia |]. cbn. destruct IH as (q & ->); [intros j J; apply B; right; exact J |]. eexists. reflexivity. }
      apply A. intros i I. apply in_map_iff in I. destruct I as (j & <- & J). apply in_zrange in J. assert (k * ((zlen t - 1) / k) <= zlen t - 1) by (apply Z.mul_div_le; lia). nia. }
    destruct T as (q & Q). exists q. split; [exact Q |]. unfold np_take in Q. apply mapM_ok_len in Q. unfold zlen at 1. rewrite Q. fold (zlen (List.map (fun i => k * i) (zrange 1 ((zlen t - 1) / k + 1)))). rewrite zlen_map.
    assert (-1 <= (zlen t - 1) / k). { apply Z.div_le_lower_bound; lia. } destruct (Z.eq_dec ((zlen t - 1) / k) (-1)) as [-> |]; [reflexivity |]. rewrite zlen_zrange by lia. lia.
  Qed.
  Lemma but_last_len (l : list F) : zlen (but_last l) = Z.max 0 (zlen l - 1).
  Proof. unfold but_last. rewrite zlen_slice. pose proof (zlen_nonneg l). unfold slice_bound. change (-1 <? 0) with true. change (0 <? 0) with false. cbv iota zeta. lia. Qed.

  (** A window inside the signal gives a row of [h - 1] values; one that runs over its end is an error. *)
  Lemma row_fits h (x : list F) i : 1 <= h -> 0 <= i -> h * (i + 2) + 1 <= zlen x -> exists r, gram_row logrfft fmul hanning h x i = Ok r /\ zlen r = h - 1.
  Proof.
    intros H1 I0 FIT. unfold gram_row. set (w := py_slice x (h * i) (h * (i + 2) + 1)). assert (W : zlen w = 2 * h + 1). { unfold w. rewrite zlen_slice. unfold slice_bound. destruct (h * i <? 0) eqn:A; [nia |]. destruct (h * (i + 2) + 1 <? 0) eqn:B; [nia |]. nia. }
    assert (HL : zlen (hanning (2 * h + 1)) = 2 * h + 1) by (apply hanning_len; lia).
    assert (M : exists p, np_mul fmul w (hanning (2 * h + 1)) = Ok p /\ zlen p = 2 * h + 1).
    { unfold np_mul. destruct w as [| a [| b w]]; [rewrite zlen_nil in W; lia | rewrite zlen_cons, zlen_nil in W; lia |]. destruct (hanning (2 * h + 1)) as [| c [| e y]]; [rewrite zlen_nil in HL; lia | rewrite zlen_cons, zlen_nil in HL; lia |].
      destruct (_ =? _) eqn:E; [| lia]. eexists. split; [reflexivity |]. rewrite zlen_map. unfold zlen in *. rewrite combine_length. lia. }
    destruct M as (p & -> & P). cbn [bind]. unfold np_rfft. destruct p as [| p1 p]; [rewrite zlen_nil in P; lia |]. cbn [bind].
    assert (R : zlen (logrfft (p1 :: p)) = h + 1). { rewrite logrfft_len, P. replace (2 * h + 1) with (1 + h * 2) by lia. rewrite Z.div_add by lia. change (1 / 2) with 0. lia. }
    set (r := py_slice _ 2 _). assert (RL : zlen r = h - 1). { unfold r. rewrite zlen_slice, R. unfold slice_bound. cbn. destruct (h + 1 <? 0) eqn:A; lia. }
    destruct (_ =? _) eqn:E; [| lia]. exists r. auto.
  Qed.
  Lemma row_over h (x : list F) i : 1 <= h -> 0 <= i -> zlen x < h * (i + 2) + 1 -> zlen x <> h * i + 1 -> gram_row logrfft fmul hanning h x i = Err ValueError.
  Proof.
    intros H1 I0 OV N1. unfold gram_row. set (w := py_slice x (h * i) (h * (i + 2) + 1)). pose proof (zlen_nonneg x). assert (W : zlen w = Z.max 0 (zlen x - h * i)). { unfold w. rewrite zlen_slice. unfold slice_bound. destruct (h * i <? 0) eqn:A; [nia |]. destruct (h * (i + 2) + 1 <? 0) eqn:B; [nia |]. nia. }
    assert (HL : zlen (hanning (2 * h + 1)) = 2 * h + 1) by (apply hanning_len; lia).
    assert (M : np_mul fmul w (hanning (2 * h + 1)) = Err ValueError).
    { unfold np_mul. destruct (hanning (2 * h + 1)) as [| c [| e y]]; [rewrite zlen_nil in HL; lia | rewrite zlen_cons, zlen_nil in HL; lia |]. destruct w as [| a [| b w]]; [| rewrite zlen_cons, zlen_nil in W; lia |]; (destruct (_ =? _) eqn:E; [| reflexivity]); rewrite HL in E; lia. }
    rewrite M. reflexivity.
  Qed.

  Lemma freq_len w h t : 1 <= h -> h + 1 <= w -> zlen (py_slice (freqs w t) 2 (h + 1)) = h - 1.
  Proof. intros H W. rewrite zlen_slice, freqs_len by lia. unfold slice_bound. change (2 <? 0) with false. cbv iota zeta. destruct (h + 1 <? 0) eqn:E; lia. Qed.

  (** One signal, all as long as the times, even window 2h. *)
  Section One.
    Context (s : signals (F := F)) (t x : list F) (name : string).
    Hypothesis IT : in_time s t.
    Hypothesis HX : dget String.eqb name (sg_data s) = Some x.
    Hypothesis LX : zlen x = zlen t.
    Hypothesis NM : name <> "time"%string /\ name <> "freq"%string.
    Let n := zlen t.
    Let call (w : option Z) := gram s (Some ["time"; name]%string) w.

    Lemma gram_one w h : (w = 2 * h \/ w = 2 * h + 1) -> 1 <= h ->
      call (Some w) = (rows <- (if 2 * n / w - 1 <? 0 then Err ValueError else mapM (gram_row logrfft fmul hanning h x) (zrange 0 (2 * n / w - 1))) ;;
                       tt <- every h t ;; Ok [("freq"%string, A1 (py_slice (freqs w t) 2 (h + 1))); ("time"%string, A1 (but_last tt)); (name, A2 rows)]).
    Proof.
      intros HW H1. unfold call, gram, spectrogram. cbn [datalist py_remove]. rewrite String.eqb_refl. cbn [bind]. rewrite (proj2 (dtstats_ok s None None t)) by (exists t; rewrite slice_all; auto). cbn [bind].
      destruct (w =? 0) eqn:E0; [lia |]. assert (HQ : Z.quot w 2 = h). { rewrite Z.quot_div_nonneg by lia. destruct HW as [-> | ->]; [rewrite Z.mul_comm; apply Z.div_mul; lia |]. replace (2 * h + 1) with (1 + h * 2) by lia. rewrite Z.div_add by lia. reflexivity. }
      rewrite HQ. assert (HN : Z.quot (2 * zlen t) w = 2 * zlen t / w) by (apply Z.quot_div_nonneg; pose proof (zlen_nonneg t); lia). rewrite HN. unfold np_fftfreq. destruct (w <? 0) eqn:E1; [lia |]. cbn [bind]. rewrite ?E0.
      destruct (every_len h t ltac:(lia)) as (q & -> & _). cbn [bind foldM]. fold n. replace (h - 1 <? 0) with false by lia. rewrite orb_false_r. destruct (2 * n / w - 1 <? 0) eqn:E2; [reflexivity |].
      assert (EM : mapM (fun i => x0 <- dget_err String.eqb name (sg_data s) ;; gram_row logrfft fmul hanning h x0 i) (zrange 0 (2 * n / w - 1)) = mapM (gram_row logrfft fmul hanning h x) (zrange 0 (2 * n / w - 1))).
      { unfold dget_err. rewrite HX. cbn [bind]. reflexivity. }
      rewrite EM. clear EM. destruct (mapM (gram_row logrfft fmul hanning h x) _) as [rows | e]; [| reflexivity]. cbn [bind]. destruct NM as (N1 & N2). apply String.eqb_neq in N1, N2. cbn [dset]. change (String.eqb "time" "freq") with false. cbn [dset]. rewrite N2. cbn [dset]. rewrite N1. reflexivity.
    Qed.

    (** C53: with an even window 2h, the spectrogram exists exactly when the signal has at least h values
        and h does not divide their number (or it is h); then there are as many rows as times and as many
        columns as frequencies. *)
    Theorem C53_even_window h : 1 <= h ->
      (is_ok (call (Some (2 * h))) = true <-> n = h \/ h < n /\ n mod h <> 0) /\
      (forall d, call (Some (2 * h)) = Ok d -> exists f tt rows, d = [("freq"%string, A1 f); ("time"%string, A1 tt); (name, A2 rows)] /\
         zlen rows = zlen tt /\ Forall (fun r => zlen r = zlen f) rows /\ zlen f = h - 1 /\ zlen tt = n / h - 1) /\
      (is_ok (call (Some (2 * h))) = false -> call (Some (2 * h)) = Err ValueError).
    Proof.
      intros H1. assert (N0 : 0 <= n) by apply zlen_nonneg. rewrite (gram_one (2 * h) h) by lia. rewrite Z.div_mul_cancel_l by lia. destruct (every_len h t ltac:(lia)) as (q & Q & QL). fold n in QL. rewrite Q.
      assert (DM : n = h * (n / h) + n mod h) by (apply Z.div_mod; lia). assert (MB : 0 <= n mod h < h) by (apply Z.mod_pos_bound; lia).
      destruct (n / h - 1 <? 0) eqn:NEG.
      { cbn. assert (n < h) by nia. split; [split; [discriminate | lia] |]. split; [discriminate | reflexivity]. }
      assert (GE : h <= n) by nia.
      destruct (Z.eq_dec n h) as [NH | NH].
      { replace (n / h - 1) with 0 by (rewrite NH, Z.div_same by lia; lia). cbn. split; [split; auto |]. split; [| discriminate]. intros d H. injection H as <-. exists (py_slice (freqs (2 * h) t) 2 (h + 1)), (but_last q), []. split; [reflexivity |].
        rewrite but_last_len, QL. replace ((n - 1) / h) with 0 by (symmetry; apply Z.div_small; lia). split; [reflexivity |]. split; [constructor |]. split; [| reflexivity].
        apply freq_len; lia. }
      destruct (Z.eq_dec (n mod h) 0) as [MZ | MZ].
      - (* the last window runs over the end *)
        assert (R : mapM (gram_row logrfft fmul hanning h x) (zrange 0 (n / h - 1)) = Err ValueError).
        { assert (2 <= n / h) by nia. apply (mapM_one_err _ _ (n / h - 2)).
          - intros i I. apply in_zrange in I. destruct (Z_le_gt_dec (h * (i + 2) + 1) n) as [L | L].
            + destruct (row_fits h x i) as (r & -> & _); [lia | lia | fold n in LX; lia | eauto].
            + right. apply row_over; [lia | lia | fold n in LX; lia |]. fold n in LX. rewrite LX. intros E. nia.
          - apply in_zrange. lia.
          - apply row_over; [lia | lia | fold n in LX; nia |]. fold n in LX. rewrite LX. intros E. nia. }
        rewrite R. cbn. split; [split; [discriminate | intros [E | (_ & E)]; contradiction] |]. split; [discriminate | reflexivity].
      - assert (R : exists rows, mapM (gram_row logrfft fmul hanning h x) (zrange 0 (n / h - 1)) = Ok rows /\ zlen rows = n / h - 1 /\ Forall (fun r => zlen r = h - 1) rows).
        { apply mapM_rows; [lia |]. intros i I. apply row_fits; [lia | lia |]. fold n in LX. rewrite LX. nia. }
        destruct R as (rows & -> & RL & RF). cbn [bind is_ok]. split; [split; [right; lia | reflexivity] |]. split; [| discriminate].
        intros d H. injection H as <-. exists (py_slice (freqs (2 * h) t) 2 (h + 1)), (but_last q), rows. split; [reflexivity |].
        assert (FL : zlen (py_slice (freqs (2 * h) t) 2 (h + 1)) = h - 1). { apply freq_len; lia. }
        assert (TL : zlen (but_last q) = n / h - 1). { rewrite but_last_len, QL. replace ((n - 1) / h) with (n / h); [lia |]. apply (Z.div_unique _ _ _ (n mod h - 1)); lia. }
        rewrite FL, TL. auto.
    Qed.

    (** With an odd window 2h + 1, the spectrogram exists exactly when the signal has more than h values;
        there are as many columns as frequencies, but the rows are
        [2 n / (2 h + 1) - 1] and the times [(n - 1) / h - 1]. *)
    Theorem C53_odd_window h : 1 <= h ->
      (is_ok (call (Some (2 * h + 1))) = true <-> h < n) /\
      (forall d, call (Some (2 * h + 1)) = Ok d -> exists f tt rows, d = [("freq"%string, A1 f); ("time"%string, A1 tt); (name, A2 rows)] /\
         Forall (fun r => zlen r = zlen f) rows /\ zlen f = h - 1 /\ zlen rows = 2 * n / (2 * h + 1) - 1 /\ zlen tt = (n - 1) / h - 1 /\ zlen rows <= zlen tt /\
         ((h + 1) * (2 * h + 1) <= n -> zlen rows < zlen tt)) /\
      (is_ok (call (Some (2 * h + 1))) = false -> call (Some (2 * h + 1)) = Err ValueError).
    Proof.
      intros H1. assert (N0 : 0 <= n) by apply zlen_nonneg. rewrite (gram_one (2 * h + 1) h) by lia. destruct (every_len h t ltac:(lia)) as (q & Q & QL). fold n in QL. rewrite Q. set (w := 2 * h + 1) in *. set (k := 2 * n / w).
      assert (DM : 2 * n = w * k + 2 * n mod w) by (apply Z.div_mod; lia). assert (MB : 0 <= 2 * n mod w < w) by (apply Z.mod_pos_bound; lia). set (r := 2 * n mod w) in *.
      assert (DH : n - 1 = h * ((n - 1) / h) + (n - 1) mod h) by (apply Z.div_mod; lia). assert (MH : 0 <= (n - 1) mod h < h) by (apply Z.mod_pos_bound; lia). set (m := (n - 1) / h) in *. set (u := (n - 1) mod h) in *.
      destruct (k - 1 <? 0) eqn:NEG.
      { cbn. assert (2 * n < w) by nia. split; [split; [discriminate | unfold w in *; lia] |]. split; [discriminate | reflexivity]. }
      assert (GE : h < n) by (unfold w in *; nia).
      assert (R : exists rows, mapM (gram_row logrfft fmul hanning h x) (zrange 0 (k - 1)) = Ok rows /\ zlen rows = k - 1 /\ Forall (fun r => zlen r = h - 1) rows).
      { apply mapM_rows; [lia |]. intros i I. apply row_fits; [lia | lia |]. fold n in LX. rewrite LX. unfold w in *. clear -I DM MB H1. nia. }
      destruct R as (rows & -> & RL & RF). cbn [bind is_ok]. split; [split; auto |]. split; [| discriminate].
      intros d H. injection H as <-. exists (py_slice (freqs w t) 2 (h + 1)), (but_last q), rows. split; [reflexivity |].
      assert (FL : zlen (py_slice (freqs w t) 2 (h + 1)) = h - 1). { apply freq_len; unfold w; lia. }
      assert (M1 : 1 <= m). { clear -DH MH GE H1. nia. }
      assert (TL : zlen (but_last q) = m - 1). { rewrite but_last_len, QL. lia. }
      rewrite FL, TL, RL. split; [exact RF |]. split; [reflexivity |]. split; [reflexivity |]. split; [reflexivity |].
      assert (KM : k <= m). { clear -DM MB DH MH GE H1 NEG M1. subst w. nia. }
      split; [lia |]. intros BIG. assert (k < m). { clear -DM MB DH MH GE H1 BIG. subst w. nia. } lia.
    Qed.

    (** No window, or one shorter than 2: an error (a window of 0 means none). *)
    Theorem C53_no_window : n < 100 -> call None = Err ZeroDivisionError /\ call (Some 0) = Err ZeroDivisionError.
    Proof using IT.
      clear freqs_len logrfft_len hanning_len. intros N. pose proof (zlen_nonneg t). assert (Z0 : zlen t / 100 = 0) by (apply Z.div_small; fold n; unfold n in *; lia).
      unfold call, gram, spectrogram. cbn [datalist py_remove]. rewrite String.eqb_refl. cbn [bind]. rewrite (proj2 (dtstats_ok s None None t)) by (exists t; rewrite slice_all; auto). cbn [bind]. rewrite Z.eqb_refl, Z0. auto.
    Qed.
    Theorem C53_bad_window w : w < 0 \/ w = 1 -> call (Some w) = Err ValueError.
    Proof using IT.
      clear freqs_len logrfft_len hanning_len. intros W. unfold call, gram, spectrogram. cbn [datalist py_remove]. rewrite String.eqb_refl. cbn [bind]. rewrite (proj2 (dtstats_ok s None None t)) by (exists t; rewrite slice_all; auto). cbn [bind].
      destruct (w =? 0) eqn:E; [lia |]. unfold np_fftfreq. destruct (w <? 0) eqn:E1; [reflexivity |]. assert (w = 1) by lia. subst w. reflexivity.
    Qed.
    Theorem C53_default_window : 100 <= n -> call None = call (Some (n / 100)).
    Proof using IT.
      clear freqs_len logrfft_len hanning_len. intros N. unfold call, gram, spectrogram. cbn [datalist py_remove]. rewrite String.eqb_refl. cbn [bind]. rewrite (proj2 (dtstats_ok s None None t)) by (exists t; rewrite slice_all; auto). cbn [bind]. fold n.
      assert (1 <= n / 100) by (apply Z.div_le_lower_bound; lia). destruct (n / 100 =? 0) eqn:E; [lia |]. rewrite E. reflexivity.
    Qed.
  End One.
End Gram.
Print Assumptions C53_spectrum.
Print Assumptions C53_spectrum_exists.
Print Assumptions C53_spectrum_consistent.
Print Assumptions C53_spectrum_range.
Print Assumptions C53_filter_changed.
Print Assumptions C53_no_time.
Print Assumptions C53_even_window.
Print Assumptions C53_odd_window.
Print Assumptions C53_no_window.
Print Assumptions C53_bad_window.
Print Assumptions C53_default_window.

(** ** Concrete cases, with stand-ins of the right lengths for the transforms *)
Definition ex_freqs (n : Z) (t : list Z) : list Z := zrange 0 n.
Definition ex_rfft (x : list Z) : list Z := zrange 0 (zlen x / 2 + 1).
Definition ex_sig (n : Z) : signals (F := Z) := Sig "timeevol" [("time", zrange 0 n); ("p", zrange 5 (n + 5))]%string.
Example c53_lengths : (forall n t, 0 <= n -> zlen (ex_freqs n t) = n) /\ (forall x, zlen (ex_rfft x) = zlen x / 2 + 1) /\ (forall n, 0 <= n -> zlen (zrange 0 n) = n).
Proof. split; [| split]; intros; unfold ex_freqs, ex_rfft; rewrite zlen_zrange; try lia. pose proof (zlen_nonneg x). assert (0 <= zlen x / 2) by (apply Z.div_pos; lia). lia. Qed.
Definition sizes (r : res (dict string (arr (F := Z)))) : res (list (string * list Z)) :=
  d <- r ;; Ok (List.map (fun '((k, a) : string * arr) => (k, match a with A1 v => [zlen v] | A2 rows => zlen rows :: List.map zlen rows end)) d).
Example c53_even : sizes (spectrogram ex_freqs ex_rfft Z.mul (fun n => zrange 0 n) (ex_sig 11) None (Some 6)) = Ok [("freq", [2]); ("time", [2]); ("p", [2; 2; 2])]%string.
Proof. vm_compute. reflexivity. Qed.
Example c53_even_over : spectrogram ex_freqs ex_rfft Z.mul (fun n => zrange 0 n) (ex_sig 12) None (Some 6) = Err ValueError.
Proof. vm_compute. reflexivity. Qed.
Example c53_odd : sizes (spectrogram ex_freqs ex_rfft Z.mul (fun n => zrange 0 n) (ex_sig 20) None (Some 5)) = Ok [("freq", [1]); ("time", [8]); ("p", [7; 1; 1; 1; 1; 1; 1; 1])]%string.
Proof. vm_compute. reflexivity. Qed.
Example c53_spectrum : sizes (spectrum ex_freqs (fun x => x) (ex_sig 20) None (Some 3) (Some (-2))) = Ok [("freq", [15]); ("p", [20])]%string.
Proof. vm_compute. reflexivity. Qed.
Example c53_no_time_case : spectrum ex_freqs (fun x => x) (ex_sig 20) (Some ["p"%string]) None None = Err ValueError /\ spectrum_filter (ex_sig 20) ["p"%string] None None = ["p"%string].
Proof. split; vm_compute; reflexivity. Qed.
