(** * Names of the zones in the HDF5 files of IC3 (writerV4.py:168-177), C43. *)
From Coq Require Import ZArith List Bool String Ascii Lia Permutation.
From Verif Require Import Py PyFacts Ic3WriteProofs Data Conn Mesh Ic3Bytes Ic3 Ic3FileSpec Ic3FileThm Ic3FileProps Ic3V4 Ic3V4Spec Ic3V4Proofs Ic3V4Props Ic3LabelSpec.

Lemma nuls_end n : (nuls n ++ nuls 1 = nuls (S n))%string.
Proof. induction n as [| n IH]; [reflexivity |]. cbn [nuls String.append] in *. rewrite IH. reflexivity. Qed.
Lemma sapp_assoc (a b c : string) : ((a ++ b) ++ c = a ++ b ++ c)%string.
Proof. induction a as [| x a IH]; [reflexivity |]. cbn. rewrite IH. reflexivity. Qed.

Lemma strip_split s : no_final_nul (strip_nul s) /\ exists n, s = (strip_nul s ++ nuls n)%string.
Proof.
  induction s as [| c s (N & n & E)].
  - split; [intros [| x s]; discriminate | exists O; reflexivity].
  - cbn [strip_nul]. destruct (strip_nul s) as [| d t] eqn:T.
    + cbn [String.append] in E. destruct (Ascii.eqb_spec c nul) as [-> | Q].
      * split; [intros [| x s']; discriminate |]. exists (S n). rewrite E. reflexivity.
      * split; [| exists n; rewrite E; reflexivity].
        intros [| x s']; cbn; intros H; [| destruct s'; discriminate].
        apply (f_equal (fun u => match u with String z _ => z | _ => nul end)) in H. apply Q. exact H.
    + split; [| exists n; rewrite E; reflexivity].
      intros [| x s'] H; [discriminate |]. cbn [String.append] in H.
      apply (f_equal (fun u => match u with String _ z => z | _ => EmptyString end)) in H. exact (N s' H).
Qed.

Lemma cut_split s : forall n, exists cut, s = (substring 0 n s ++ cut)%string /\
  (String.length (substring 0 n s) = n \/ (cut = ""%string /\ (String.length (substring 0 n s) <= n)%nat)).
Proof.
  induction s as [| c s IH]; intros [| n]; cbn [substring].
  - exists ""%string. split; [reflexivity | left; reflexivity].
  - exists ""%string. split; [reflexivity | right; cbn; split; [reflexivity | lia]].
  - exists (String c s). split; [reflexivity | left; reflexivity].
  - destruct (IH n) as (cut & E & L). exists cut. cbn [String.append String.length]. split; [f_equal; exact E |]. destruct L as [L | (C & L)]; [left | right]; [| split; [exact C |]]; lia.
Qed.

Lemma label_of_kept s t : label_of s = Ok t -> label_kept s t.
Proof.
  unfold label_of. destruct (forallb _ _) eqn:A; [| discriminate]. intros H. apply ok_inj in H. subst t.
  split; [intros c I; rewrite forallb_forall in A; apply Nat.ltb_lt, A, I |].
  destruct (strip_split (substring 0 128 s)) as (N & n & E). split; [exact N |].
  destruct (cut_split s 128) as (cut & C & L). exists n, cut. rewrite <- sapp_assoc, <- E. split; assumption.
Qed.

Section Props.
  Context (i2d : Z -> Z) (narrow : Z -> Z).

  (** C43: the file has one label for each mark of the mesh and one for the internal domain, in some
      order: the first 128 characters of the name, without the NULs at their end.  Names with other
      characters than ASCII are refused. *)
  Theorem C43_labels tbl enum host endian solution fm mf so fm' :
    write4 i2d narrow tbl enum host endian solution fm = (Ok (mf, so), fm') ->
    exists b names, m4_bounds mf = Some b /\
      Permutation names (List.map fst (zone_marks (fm_mesh fm')) ++ ["internal-domain"%string]) /\
      Forall2 label_kept names (b4_labels b).
  Proof.
    intros H. destruct (write4_parts _ _ _ _ _ _ _ _ _ _ _ H) as (w & W & WM & _).
    destruct (writer_state_ok _ _ W) as (_ & _ & _ & _ & _ & _ & _ & _ & _ & _ & _ & _ & _ & _ & _ & WB & _).
    unfold write_mesh4 in WM. apply bind_ok in WM; destruct WM as (f2e & _ & WM). apply bind_ok in WM; destruct WM as (cv & _ & WM).
    apply bind_ok in WM; destruct WM as (b & B & WM). apply ok_inj in WM. subst mf. rewrite WB in B. exists b.
    unfold write_bounds4 in B. apply bind_ok in B; destruct B as (ms & MS & B). apply bind_ok in B; destruct B as (labels & LB & B).
    destruct (existsb _ _); [discriminate |]. apply bind_ok in B; destruct B as (off & _ & B). apply ok_inj in B. subst b. cbn [m4_bounds b4_labels].
    match type of LB with mapM _ ?l = _ => exists (List.map (fun r => fst (snd r)) l) end. split; [reflexivity |]. split.
    - rewrite (Permutation_map _ (isort_perm _ _)). rewrite map_app. cbn [List.map fst snd]. rewrite map_map.
      replace (List.map (fun x : Z * Z * (string * Z) * option (list Z) => fst (snd (let '(lo, _, kk, _) := x in (lo, kk)))) ms) with (List.map fst (zone_marks (fm_mesh fm'))); [reflexivity |].
      apply mapM_ok_Forall2 in MS. clear - MS. induction MS as [| (k, m) r l l' M _ IH]; [reflexivity |]. cbn [List.map fst]. rewrite IH.
      destruct (mark4_row _ _ _ M) as (-> & _). reflexivity.
    - apply mapM_ok_Forall2 in LB. clear - LB. induction LB as [| r t l l' E _ IH]; cbn [List.map]; constructor; [apply label_of_kept; exact E | exact IH].
  Qed.
End Props.

(** A name that ends with NUL, and one of 130 characters. *)
Fixpoint many (n : nat) : string := match n with O => "bc"%string | S n' => String "a" (many n') end.
Definition ex_nul : string := ("out" ++ nuls 2)%string.
Definition ex4_names : dict string (mark Z) := [bmark ex_nul 2 3; bmark (many 128) 0 1].
Example c43_labels_case :
  match fst (ex4_write false (ex4_fm ex4_names "RHO")) with
  | Ok (mf, _) => option_map b4_labels (m4_bounds mf) = Some [substring 0 128 (many 128); "out"; "internal-domain"]%string
  | Err _ => False
  end.
Proof. vm_compute. reflexivity. Qed.
Example c43_refused_case : fst (ex4_write false (ex4_fm [bmark (String (ascii_of_nat 200) "a") 0 3] "RHO")) = Err UnicodeError.
Proof. vm_compute. reflexivity. Qed.
Print Assumptions C43_labels.
