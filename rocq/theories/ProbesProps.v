(** * Property C55 (probe data and what they depend on). *)
From Coq Require Import Lia List.
From Verif Require Import Py PyFacts Probes.

(** What each derived variable is computed from. *)
Definition made_from : list (string * list string) :=
  [("Asound", ["P"; "RHO"]); ("S", ["P"; "RHO"]); ("Mach", ["U"; "Asound"]); ("U", ["U-X"; "U-Y"; "U-Z"]);
   ("INVX+", ["U-X"; "Asound"]); ("INVX-", ["U-X"; "Asound"])]%string.

Section Probes.
  Context {F : Type} (mag : values (F := F) -> values (F := F) -> values (F := F) -> res (values (F := F)))
          (quot sound invp invm entropy : values (F := F) -> values (F := F) -> res (values (F := F)))
          (steady : list F -> list (list F) -> bool) (files : string -> option (rdata (F := F))).
  Notation values := (values (F := F)).
  Notation data := (data (F := F)).
  Notation check := (check_data mag quot sound invp invm entropy steady files).
  Notation look d k := (dget String.eqb k%string d).

    Lemma after3_len (row : list F) : 3 < zlen row -> zlen (after3 row) <> 0.
    Proof. unfold after3, zlen. rewrite skipn_length. lia. Qed.
    Lemma table_size rows : rows <> [] -> Forall (fun row => 3 < zlen row) rows -> size (V2 (List.map after3 rows) : values) <> 0.
    Proof.
      intros N A. cbn [size]. destruct rows as [| r rows]; [contradiction |]. apply Forall_cons_iff in A. destruct A as (A & B). cbn [List.map]. unfold zsum. cbn [fold_right]. apply after3_len in A. pose proof (zlen_nonneg (after3 r)).
      assert (0 <= zsum (List.map zlen (List.map after3 rows))). { clear. unfold zsum. induction rows as [| r rows IH]; cbn [List.map fold_right]; [lia |]. pose proof (zlen_nonneg (after3 r)). lia. } unfold zsum in *. lia.
    Qed.
  (** ** The values of variables *)
  Section Value.
    Context (prefix : string) (d : data).
    Definition file (v : string) : option rdata := files (prefix ++ "." ++ v)%string.
    Definition is_coord (v : string) : Prop := In v ["X"; "Y"; "Z"]%string.
    (** Not loaded and without a file: it has to be computed. *)
    Definition absent (v : string) : Prop := look d v = None /\ file v = None.
    Inductive value : string -> values -> Prop :=
    | V_loaded v x : look d v = Some x -> value v x
    | V_line v row : look d v = None -> file v = Some (R1 row) -> value v (V1 (skipn 3 row))
    | V_coord v first rows : look d v = None -> is_coord v -> file v = Some (R2 (first :: rows)) -> value v (V1 (skipn 3 first))
    | V_table v rows : look d v = None -> ~ is_coord v -> file v = Some (R2 rows) -> value v (V2 (List.map (skipn 3) rows))
    | V_U x y z u : absent "U" -> value "U-X" x -> value "U-Y" y -> value "U-Z" z -> mag x y z = Ok u -> value "U" u
    | V_Mach u a m : absent "Mach" -> value "U" u -> value "Asound" a -> quot u a = Ok m -> value "Mach" m
    | V_Asound p r a : absent "Asound" -> value "P" p -> value "RHO" r -> sound p r = Ok a -> value "Asound" a
    | V_invp u a i : absent "INVX+" -> value "U-X" u -> value "Asound" a -> invp u a = Ok i -> value "INVX+" i
    | V_invm u a i : absent "INVX-" -> value "U-X" u -> value "Asound" a -> invm u a = Ok i -> value "INVX-" i
    | V_S p r s : absent "S" -> value "P" p -> value "RHO" r -> entropy p r = Ok s -> value "S" s.

    (** A variable has at most one value. *)
    Lemma value_fun v x : value v x -> forall y, value v y -> x = y.
    Proof.
      unfold absent. induction 1; intros w W; inversion W; subst; unfold absent in *; try congruence; try (repeat match goal with H : _ /\ _ |- _ => destruct H end; congruence); try contradiction;
        repeat match goal with IH : (forall _, value ?v _ -> ?x = _), H : value ?v _ |- _ => apply IH in H; subst end; congruence.
    Qed.

    (** What has to hold for no error but NameError: the files are readable and not empty, those of
        coordinates steady, loaded data not empty, and the formulas apply to the values there are. *)
    Definition good_file (v : string) : Prop := match file v with
      | None => True | Some (R0 _) => False | Some (R1 row) => 3 < zlen row
      | Some (R2 rows) => rows <> [] /\ Forall (fun row => 3 < zlen row) rows /\ (is_coord v -> forall first q, rows = first :: q -> steady (skipn 3 first) (List.map (skipn 3) rows) = true)
      end.
    Definition gives (r : res values) : Prop := exists x, r = Ok x /\ size x <> 0.
    Record good : Prop := Good {
      g_files : forall v, good_file v;
      g_loaded : forall v x, look d v = Some x -> size x <> 0;
      g_U : forall x y z, value "U-X" x -> value "U-Y" y -> value "U-Z" z -> gives (mag x y z);
      g_Mach : forall u a, value "U" u -> value "Asound" a -> gives (quot u a);
      g_Asound : forall p r, value "P" p -> value "RHO" r -> gives (sound p r);
      g_invp : forall u a, value "U-X" u -> value "Asound" a -> gives (invp u a);
      g_invm : forall u a, value "U-X" u -> value "Asound" a -> gives (invm u a);
      g_S : forall p r, value "P" p -> value "RHO" r -> gives (entropy p r) }.

    Lemma value_size v x : good -> value v x -> size x <> 0.
    Proof.
      intros G H. inversion H; subst.
      - apply (g_loaded G) in H0. exact H0.
      - assert (A := g_files G v). unfold good_file in A. rewrite H1 in A. apply after3_len. exact A.
      - assert (A := g_files G v). unfold good_file in A. rewrite H2 in A. destruct A as (_ & A & _). apply Forall_cons_iff in A. apply after3_len. apply A.
      - assert (A := g_files G v). unfold good_file in A. rewrite H2 in A. destruct A as (A1 & A2 & _). apply table_size; assumption.
      - destruct (g_U G x0 y z) as (w & E & S); auto. congruence.
      - destruct (g_Mach G u a) as (w & E & S); auto. congruence.
      - destruct (g_Asound G p r) as (w & E & S); auto. congruence.
      - destruct (g_invp G u a) as (w & E & S); auto. congruence.
      - destruct (g_invm G u a) as (w & E & S); auto. congruence.
      - destruct (g_S G p r) as (w & E & S); auto. congruence.
    Qed.
  End Value.

  Arguments g_files {prefix d}. Arguments g_loaded {prefix d}. Arguments g_U {prefix d}. Arguments g_Mach {prefix d}. Arguments g_Asound {prefix d}. Arguments g_invp {prefix d}. Arguments g_invm {prefix d}. Arguments g_S {prefix d}.

  (** ** One step of the model *)
  Definition finish (v : string) (d : data) : res bool * data := match (x <- get d v ;; log_stats x) with Ok _ => (Ok true, d) | Err e => (Err e, d) end.
  Fixpoint check_all (f : string -> data -> res bool * data) (deps : list string) (d : data) : res bool * data :=
    match deps with
    | [] => (Ok true, d)
    | dep :: deps => match f dep d with
        | (Err e, d) => (Err e, d)
        | (Ok b, d) => match check_all f deps d with (Ok b', d) => (Ok (b && b'), d) | (Err e, d) => (Err e, d) end
        end
    end.
  Lemma check_eq n v prefix d : check n v prefix d =
    if dmem String.eqb v d then finish v d
    else match read_data steady files v prefix (existsb (String.eqb v) coordinates) d with
      | (Err e, d) => (Err e, d)
      | (Ok true, d) => finish v d
      | (Ok false, d) => match dget String.eqb v dependency_vars with
          | None => (Err NameError, d)
          | Some deps => match n with
              | O => (Err OutOfFuel, d)
              | S n => let '(r, d) := check_all (fun dep => check n dep prefix) deps d in
                  match r with
                  | Err e => (Err e, d) | Ok false => (Err NameError, d)
                  | Ok true => match compute mag quot sound invp invm entropy v d with Ok x => finish v (put v x d) | Err e => (Err e, d) end
                  end
              end
          end
      end.
  Proof.
    assert (A : forall n prefix deps d, (fix all (deps : list string) (d : data) : res bool * data :=
                     match deps with
                     | [] => (Ok true, d)
                     | dep :: deps =>
                         match check n dep prefix d with
                         | (Err e, d) => (Err e, d)
                         | (Ok b, d) => match all deps d with (Ok b', d) => (Ok (b && b'), d) | (Err e, d) => (Err e, d) end
                         end
                     end) deps d = check_all (fun dep => check n dep prefix) deps d).
    { clear. intros n prefix. induction deps as [| dep deps IH]; intros d; [reflexivity |]. cbn [check_all]. destruct (check n dep prefix d) as [[b | e] d1]; [| reflexivity]. rewrite IH. reflexivity. }
    destruct n; cbn [check_data]; [reflexivity |]. unfold finish. destruct (dmem String.eqb v d); [reflexivity |]. destruct (read_data steady files v prefix _ d) as [[[|] | e] d1]; try reflexivity.
    destruct (dget String.eqb v dependency_vars) as [deps |]; [| reflexivity]. rewrite A. reflexivity.
  Qed.

  (** ** Nothing loaded is changed, whatever happens *)
  Definition keeps (d d' : data) : Prop := forall k x, look d k = Some x -> look d' k = Some x.
  Lemma keeps_refl d : keeps d d. Proof. intros k x H. exact H. Qed.
  Lemma keeps_trans d1 d2 d3 : keeps d1 d2 -> keeps d2 d3 -> keeps d1 d3. Proof. intros A B k x H. apply B, A, H. Qed.
  Lemma keeps_put d k x : look d k = None -> keeps d (put k x d).
  Proof. intros N j y H. unfold put. rewrite (dget_dset_neq _ String.eqb_eq); [exact H |]. intros ->. congruence. Qed.
  Lemma dmem_look (d : data) k : dmem String.eqb k d = true <-> exists x, look d k = Some x.
  Proof. unfold dmem. destruct (dget String.eqb k d) as [x |]; split; intros H; try discriminate; eauto. destruct H as (x & H). discriminate. Qed.
  Lemma dmem_none (d : data) k : dmem String.eqb k d = false <-> look d k = None.
  Proof. unfold dmem. destruct (dget String.eqb k d); split; congruence. Qed.

  Lemma read_keeps v prefix c d : look d v = None -> keeps d (snd (read_data steady files v prefix c d)).
  Proof.
    intros N. unfold read_data. destruct (files _) as [[x | row | rows] |]; try apply keeps_refl; [apply keeps_put; exact N |].
    destruct c.
    - destruct rows as [| first rows]; [apply keeps_refl |]. destruct (steady _ _); apply keeps_put; exact N.
    - destruct (dmem String.eqb "time" _) eqn:T; [apply keeps_put; exact N |]. apply dmem_none in T. destruct (mapM _ rows); [| apply keeps_put; exact N]. cbn [snd]. eapply keeps_trans; [apply keeps_put; exact N |]. apply keeps_put. exact T.
  Qed.
  Lemma finish_snd v d : snd (finish v d) = d. Proof. unfold finish. destruct (_ <- _ ;; _); reflexivity. Qed.
  Theorem C55_kept n v prefix d k x : look d k = Some x -> look (snd (check n v prefix d)) k = Some x.
  Proof.
    revert v d k x. change (forall v d, keeps d (snd (check n v prefix d))). induction n as [n IH] using (well_founded_induction lt_wf). intros v d. rewrite check_eq. destruct (dmem String.eqb v d) eqn:M; [rewrite finish_snd; apply keeps_refl |]. apply dmem_none in M.
    assert (R := read_keeps v prefix (existsb (String.eqb v) coordinates) d M). destruct (read_data steady files v prefix _ d) as [[[|] | e] d1]; cbn [snd] in R; [rewrite finish_snd; exact R | | exact R].
    destruct (dget String.eqb v dependency_vars) as [deps |]; [| exact R]. destruct n as [| n]; [exact R |].
    assert (A : forall deps d, keeps d (snd (check_all (fun dep => check n dep prefix) deps d))).
    { induction deps0 as [| dep deps0 IHd]; intros d2; [apply keeps_refl |]. cbn [check_all]. assert (K := IH n (Nat.lt_succ_diag_r n) dep d2). destruct (check n dep prefix d2) as [[b | e] d3]; [| exact K]. cbn [snd] in K.
      specialize (IHd d3). destruct (check_all _ deps0 d3) as [[b' | e] d4]; cbn [snd] in *; apply (keeps_trans _ d3); assumption. }
    specialize (A deps d1). destruct (check_all _ deps d1) as [[[|] | e] d2]; cbn [snd] in A; try (apply (keeps_trans _ d1); assumption).
    destruct (compute _ _ _ _ _ _ v d2) as [x | e]; [| apply (keeps_trans _ d1); assumption]. rewrite finish_snd. intros k y H. unfold put. destruct (string_dec k v) as [-> | NE]; [congruence |]. rewrite (dget_dset_neq _ String.eqb_eq) by exact NE. apply A, R, H.
  Qed.

  (** ** The depth is at most 2 *)
  Definition rank (v : string) : nat := if existsb (String.eqb v) ["Mach"; "INVX+"; "INVX-"]%string then 2 else if existsb (String.eqb v) ["U"; "Asound"; "S"]%string then 1 else 0.
  Lemma deps_cases v deps : dget String.eqb v dependency_vars = Some deps ->
    (v = "Asound" /\ deps = ["P"; "RHO"] \/ v = "S" /\ deps = ["P"; "RHO"] \/ v = "Mach" /\ deps = ["U"; "Asound"] \/ v = "U" /\ deps = ["U-X"; "U-Y"; "U-Z"] \/ v = "INVX+" /\ deps = ["U-X"; "Asound"] \/ v = "INVX-" /\ deps = ["U-X"; "Asound"])%string.
  Proof.
    unfold dependency_vars. cbn [dget]. repeat (match goal with |- context [String.eqb v ?k] => destruct (String.eqb_spec v k) as [-> |] end; [intros H; injection H as <-; tauto |]). discriminate.
  Qed.
  Lemma deps_rank v deps : dget String.eqb v dependency_vars = Some deps -> rank v <> 0%nat /\ forall dep, In dep deps -> (rank dep < rank v)%nat /\ dep <> "time"%string.
  Proof.
    intros H. apply deps_cases in H. decompose [or and] H; subst; (split; [vm_compute; discriminate |]); intros dep I; cbn in I; decompose [or] I; subst; try contradiction; (split; [vm_compute; lia | discriminate]).
  Qed.
  Theorem C55_terminates n v prefix d : check (S (S n)) v prefix d = check 2 v prefix d.
  Proof.
    assert (A : forall m v n d, (rank v <= m)%nat -> (m <= n)%nat -> check n v prefix d = check m v prefix d).
    { clear. induction m as [m IH] using (well_founded_induction lt_wf). intros v n d RK MN. rewrite !check_eq. destruct (dmem String.eqb v d); [reflexivity |].
      destruct (read_data steady files v prefix _ d) as [[[|] | e] d1]; try reflexivity.
      destruct (dget String.eqb v dependency_vars) as [deps |] eqn:DV; [| reflexivity]. destruct (deps_rank _ _ DV) as (R0 & R1). destruct m as [| m]; [lia |]. destruct n as [| n]; [lia |].
      assert (AA : forall deps0 d, (forall dep, In dep deps0 -> (rank dep <= m)%nat) -> check_all (fun dep => check n dep prefix) deps0 d = check_all (fun dep => check m dep prefix) deps0 d).
      { induction deps0 as [| dep deps0 IHd]; intros d2 RR; [reflexivity |]. cbn [check_all]. rewrite (IH m (Nat.lt_succ_diag_r m) dep n d2); [| apply RR; left; reflexivity | lia]. destruct (check m dep prefix d2) as [[b | e] d3]; [| reflexivity].
        rewrite IHd; [reflexivity | intros x I; apply RR; right; exact I]. }
      rewrite AA; [reflexivity |]. intros dep I. destruct (R1 dep I). lia. }
    apply A; [| lia]. unfold rank. destruct (existsb _ _); [lia |]. destruct (existsb _ _); lia.
  Qed.

  (** ** What is loaded, and when *)
  Section Main.
    Context (prefix : string) (d0 : data) (G : good prefix d0).
    Notation val := (value prefix d0).
    (** The data loaded on the way are values; 'time' apart, which comes with any table. *)
    Definition ext (d : data) : Prop := keeps d0 d /\ forall k x, look d k = Some x -> k = "time"%string \/ val k x.
    Lemma ext0 : ext d0. Proof. split; [apply keeps_refl |]. intros k x H. right. apply V_loaded. exact H. Qed.
    Lemma ext_put d k x : ext d -> look d k = None -> k = "time"%string \/ val k x -> ext (put k x d).
    Proof.
      intros (E1 & E2) N V. split; [eapply keeps_trans; [exact E1 | apply keeps_put; exact N] |]. intros j y H. unfold put in H. destruct (string_dec j k) as [-> | NE].
      - rewrite (dget_dset_eq _ String.eqb_eq) in H. injection H as <-. exact V.
      - rewrite (dget_dset_neq _ String.eqb_eq) in H by exact NE. apply E2. exact H.
    Qed.
    Lemma ext_none d k : ext d -> look d k = None -> look d0 k = None.
    Proof. intros (E & _) N. destruct (dget String.eqb k d0) eqn:H; [| reflexivity]. apply E in H. congruence. Qed.

    Lemma coord_dec v : existsb (String.eqb v) coordinates = true <-> is_coord v.
    Proof. unfold is_coord. change coordinates with ["X"; "Y"; "Z"]%string. rewrite existsb_exists. split; [intros (y & I & E); apply String.eqb_eq in E; subst; exact I | intros I; exists v; split; [exact I | apply String.eqb_refl]]. Qed.
    Lemma put_same (d : data) k x : look (put k x d) k = Some x. Proof. apply (dget_dset_eq _ String.eqb_eq). Qed.
    Lemma read_ok v d : ext d -> look d v = None -> match file prefix v with
      | None => read_data steady files v prefix (existsb (String.eqb v) coordinates) d = (Ok false, d)
      | Some _ => exists d' x, read_data steady files v prefix (existsb (String.eqb v) coordinates) d = (Ok true, d') /\ ext d' /\ val v x /\ look d' v = Some x
      end.
    Proof using G.
      intros E N. assert (N0 := ext_none _ _ E N). assert (GF := g_files G v). unfold good_file, read_data in *. fold (file prefix v). destruct (file prefix v) as [[x | row | rows] |] eqn:FV; [contradiction | | | reflexivity].
      - assert (W : val v (V1 (after3 row))) by (apply V_line; assumption). exists (put v (V1 (after3 row)) d), (V1 (after3 row)). split; [reflexivity |]. split; [apply ext_put; auto |]. split; [exact W | apply put_same].
      - destruct GF as (G1 & G2 & G3). destruct (existsb (String.eqb v) coordinates) eqn:C.
        + apply coord_dec in C. destruct rows as [| first rows]; [contradiction |]. change (@after3 F) with (@skipn F 3). rewrite (G3 C first rows eq_refl). assert (W : val v (V1 (skipn 3 first))) by (eapply V_coord; eassumption).
          eexists _, _. split; [reflexivity |]. split; [apply ext_put; eauto |]. split; [exact W | apply put_same].
        + assert (NC : ~ is_coord v) by (intros I; apply coord_dec in I; congruence). assert (W : val v (V2 (List.map after3 rows))) by (apply V_table; assumption).
          assert (E1 : ext (put v (V2 (List.map after3 rows)) d)) by (apply ext_put; auto).
          destruct (dmem String.eqb "time" (put v (V2 (List.map after3 rows)) d)) eqn:T; [eexists _, _; split; [reflexivity |]; split; [exact E1 |]; split; [exact W | apply put_same] |].
          assert (M : exists t, mapM (fun row => py_get row 1) rows = Ok t). { clear -G2. induction rows as [| r rows IH]; [eexists; reflexivity |]. apply Forall_cons_iff in G2. destruct G2 as (A & B). destruct (IH B) as (t & Ht). destruct (py_get_total r 1) as (y & Hy); [lia |]. cbn [mapM]. rewrite Hy. cbn [bind]. rewrite Ht. eexists. reflexivity. }
          destruct M as (t & ->). apply dmem_none in T. eexists _, _. split; [reflexivity |]. split; [apply ext_put; auto |]. split; [exact W |]. unfold put at 1. rewrite (dget_dset_neq _ String.eqb_eq); [apply put_same |]. intros ->. rewrite put_same in T. discriminate.
    Qed.
    Lemma finish_ok v d x : look d v = Some x -> val v x -> finish v d = (Ok true, d).
    Proof using G. intros H V. unfold finish, get, dget_err. rewrite H. cbn [bind]. unfold log_stats. assert (S := value_size prefix d0 v x G V). destruct (size x =? 0) eqn:E; [lia | reflexivity]. Qed.

    Definition outcome (v : string) (p : res bool * data) : Prop :=
      ext (snd p) /\ (fst p = Ok true /\ (exists x, val v x /\ look (snd p) v = Some x) \/ fst p = Err NameError /\ ~ exists x, val v x).
    Lemma main : forall n v d, (rank v <= n)%nat -> (v <> "time"%string \/ d = d0) -> ext d -> outcome v (check n v prefix d).
    Proof using G.
      induction n as [n IH] using (well_founded_induction lt_wf). intros v d RK VT E. rewrite check_eq. destruct (dmem String.eqb v d) eqn:M.
      - apply dmem_look in M. destruct M as (x & Hx). assert (W : val v x). { destruct VT as [VT | ->]; [destruct (proj2 E v x Hx) as [C | W]; [contradiction | exact W] | apply V_loaded; exact Hx]. } rewrite (finish_ok v d x Hx W). split; [exact E |]. left. eauto.
      - apply dmem_none in M. assert (N0 := ext_none _ _ E M). assert (R := read_ok v d E M). destruct (file prefix v) as [r |] eqn:FV.
        { destruct R as (d' & x & -> & E' & W & L). rewrite (finish_ok v d' x L W). split; [exact E' |]. left. eauto. }
        rewrite R. assert (AB : absent prefix d0 v) by (split; assumption).
        destruct (dget String.eqb v dependency_vars) as [deps |] eqn:DV.
        2: { split; [exact E |]. right. split; [reflexivity |]. intros (x & W). inversion W; subst; try congruence; discriminate DV. }
        destruct (deps_rank _ _ DV) as (R0 & R1). destruct n as [| n]; [lia |].
        assert (AA : forall ds d, ext d -> (forall dep, In dep ds -> (rank dep <= n)%nat /\ dep <> "time"%string) ->
          let p := check_all (fun dep => check n dep prefix) ds d in ext (snd p) /\ keeps d (snd p) /\
          (fst p = Ok true /\ (forall dep, In dep ds -> exists x, val dep x /\ look (snd p) dep = Some x) \/ fst p = Err NameError /\ exists dep, In dep ds /\ ~ exists x, val dep x)).
        { clear -IH G. induction ds as [| dep ds IHd]; intros d E RR; [split; [exact E | split; [apply keeps_refl | left; split; [reflexivity | intros dep []]]] |]. cbn [check_all].
          destruct (RR dep (or_introl eq_refl)) as (RD & ND). assert (O := IH n (Nat.lt_succ_diag_r n) dep d RD (or_introl ND) E). assert (K : keeps d (snd (check n dep prefix d))) by (intros k x H; apply C55_kept; exact H).
          destruct (check n dep prefix d) as [r1 d1]. destruct O as (E1 & O). cbn [fst snd] in *. destruct O as [(-> & x & W & L) | (-> & O)].
          - destruct (IHd d1 E1) as (E2 & K2 & O2); [intros y I; apply RR; right; exact I |]. destruct (check_all _ ds d1) as [r2 d2]. cbn [fst snd] in *. destruct O2 as [(-> & O2) | (-> & y & I & O2)].
            + split; [exact E2 |]. split; [eapply keeps_trans; eassumption |]. left. split; [reflexivity |]. intros y [<- | I]; [exists x; split; [exact W | apply K2; exact L] | apply O2; exact I].
            + split; [exact E2 |]. split; [eapply keeps_trans; eassumption |]. right. split; [reflexivity |]. exists y. split; [right; exact I | exact O2].
          - split; [exact E1 |]. split; [exact K |]. right. split; [reflexivity |]. exists dep. split; [left; reflexivity | exact O]. }
        destruct (AA deps d E) as (E2 & K2 & O); [intros dep I; destruct (R1 dep I); split; [lia | assumption] |]. destruct (check_all _ deps d) as [r2 d2]. cbn [fst snd] in *. destruct O as [(-> & O) | (-> & dep & I & O)].
        + assert (C : exists x, compute mag quot sound invp invm entropy v d2 = Ok x /\ val v x).
          { apply deps_cases in DV. decompose [or and] DV; subst v deps; unfold compute; cbn [String.eqb Ascii.eqb Bool.eqb];
            repeat match goal with O : forall dep, In dep (?k :: ?ds) -> _ |- _ => let x := fresh "x" in let W := fresh "W" in let L := fresh "L" in destruct (O k (or_introl eq_refl)) as (x & W & L); assert (O' : forall dep, In dep ds -> exists x, val dep x /\ look d2 dep = Some x) by (intros ? ?; apply O; right; assumption); clear O; rename O' into O end;
            unfold get, dget_err; repeat match goal with L : look d2 _ = Some _ |- _ => rewrite L; clear L end; cbn [bind].
            - destruct (g_Asound G x x0 W W0) as (y & Y & _). exists y. split; [exact Y |]. eapply V_Asound; eassumption.
            - destruct (g_S G x x0 W W0) as (y & Y & _). exists y. split; [exact Y |]. eapply V_S; eassumption.
            - destruct (g_Mach G x x0 W W0) as (y & Y & _). exists y. split; [exact Y |]. eapply V_Mach; eassumption.
            - destruct (g_U G x x0 x1 W W0 W1) as (y & Y & _). exists y. split; [exact Y |]. eapply V_U; eassumption.
            - destruct (g_invp G x x0 W W0) as (y & Y & _). exists y. split; [exact Y |]. eapply V_invp; eassumption.
            - destruct (g_invm G x x0 W W0) as (y & Y & _). exists y. split; [exact Y |]. eapply V_invm; eassumption. }
          destruct C as (x & -> & W). rewrite (finish_ok v (put v x d2) x (put_same _ _ _) W). cbn [fst snd].
          assert (E3 : ext (put v x d2)).
          { destruct E2 as (F1 & F2). split.
            - intros k y H. unfold put. destruct (string_dec k v) as [-> | NE]; [congruence |]. rewrite (dget_dset_neq _ String.eqb_eq) by exact NE. apply F1. exact H.
            - intros k y H. unfold put in H. destruct (string_dec k v) as [-> | NE]; [rewrite (dget_dset_eq _ String.eqb_eq) in H; injection H as <-; auto |]. rewrite (dget_dset_neq _ String.eqb_eq) in H by exact NE. apply F2. exact H. }
          split; [exact E3 |]. left. split; [reflexivity |]. exists x. split; [exact W | apply put_same].
        + split; [exact E2 |]. right. split; [reflexivity |]. intros (x & W). apply O. clear -W I DV AB. destruct AB as (N0 & FN). apply deps_cases in DV.
          inversion W; subst; try congruence; decompose [or and] DV; subst; try discriminate; cbn in I; decompose [or] I; subst; try contradiction; eauto.
    Qed.

    (** C55: the request succeeds exactly when the variable has a value, which is then loaded; otherwise it
        raises NameError.  All that is loaded on the way, except 'time', are values as well. *)
    Theorem C55_check v : let '(r, d) := check 2 v prefix d0 in
      (r = Ok true /\ (exists x, val v x /\ look d v = Some x) \/ r = Err NameError /\ ~ exists x, val v x) /\
      (forall k x, look d k = Some x -> k = "time"%string \/ val k x) /\ (forall k x, look d0 k = Some x -> look d k = Some x).
    Proof using G.
      assert (RK : (rank v <= 2)%nat). { unfold rank. destruct (existsb _ _); [lia |]. destruct (existsb _ _); lia. } destruct (main 2 v d0 RK (or_intror eq_refl) ext0) as (E & O). destruct (check 2 v prefix d0) as [r d]. cbn [fst snd] in *. split; [exact O |]. split; [apply E | apply E].
    Qed.
  End Main.

  (** After a success the variable is loaded and, if it had to be computed, all it was computed from. *)
  Lemma finish_loaded v d : fst (finish v d) = Ok true -> exists x, look d v = Some x.
  Proof. unfold finish, get, dget_err. destruct (dget String.eqb v d) as [x |]; [eauto | discriminate]. Qed.
  Theorem C55_sources n v prefix d : fst (check n v prefix d) = Ok true ->
    (exists x, look (snd (check n v prefix d)) v = Some x) /\
    (absent prefix d v -> exists deps, In (v, deps) made_from /\ forall dep, In dep deps -> exists x, look (snd (check n v prefix d)) dep = Some x).
  Proof.
    assert (FL : forall v d, fst (finish v d) = Ok true -> exists x, look (snd (finish v d)) v = Some x) by (intros v0 q H; rewrite finish_snd; apply finish_loaded; exact H).
    assert (L : forall n v d, fst (check n v prefix d) = Ok true -> exists x, look (snd (check n v prefix d)) v = Some x).
    { clear -FL. intros n v d. rewrite check_eq. destruct (dmem String.eqb v d); [apply FL |]. destruct (read_data steady files v prefix _ d) as [[[|] | e] d1]; [apply FL | | discriminate]. destruct (dget String.eqb v dependency_vars) as [deps |]; [| discriminate]. destruct n as [| n]; [discriminate |].
      destruct (check_all _ deps d1) as [[[|] | e] d2]; try discriminate. destruct (compute _ _ _ _ _ _ v d2); [apply FL | discriminate]. }
    intros H. split; [apply L; exact H |]. intros (N & FN). revert H. rewrite check_eq. apply dmem_none in N. rewrite N. unfold read_data. unfold file in FN. rewrite FN. destruct (dget String.eqb v dependency_vars) as [deps |] eqn:DV; [| discriminate]. destruct n as [| n]; [discriminate |].
    assert (AA : forall ds d, fst (check_all (fun dep => check n dep prefix) ds d) = Ok true -> forall dep, In dep ds -> exists x, look (snd (check_all (fun dep => check n dep prefix) ds d)) dep = Some x).
    { clear -L. assert (K : forall ds d, keeps d (snd (check_all (fun dep => check n dep prefix) ds d))).
      { induction ds as [| a ds IH]; intros d; [apply keeps_refl |]. cbn [check_all]. assert (K1 : keeps d (snd (check n a prefix d))) by (intros k x Hk; apply C55_kept; exact Hk). destruct (check n a prefix d) as [[b | e] d1]; [| exact K1]. specialize (IH d1). destruct (check_all _ ds d1) as [[b' | e] d2]; cbn [snd] in *; eapply keeps_trans; eassumption. }
      induction ds as [| a ds IH]; intros d H dep I; [destruct I |]. cbn [check_all] in *. assert (La := L n a d). destruct (check n a prefix d) as [[b | e] d1] eqn:CA; [| discriminate]. specialize (IH d1). specialize (K ds d1). destruct (check_all _ ds d1) as [[b' | e] d2] eqn:CB; [| discriminate]. cbn [fst snd] in *.
      injection H as H. apply andb_true_iff in H. destruct H as (-> & ->). destruct I as [<- | I]; [destruct (La eq_refl) as (x & X); exists x; apply K; exact X | apply IH; auto]. }
    specialize (AA deps d). destruct (check_all _ deps d) as [[[|] | e] d2]; try discriminate. cbn [fst snd] in AA. destruct (compute _ _ _ _ _ _ v d2) as [x | e]; [| discriminate]. intros _. rewrite finish_snd. exists deps. split; [apply (dget_in _ String.eqb_eq) in DV; exact DV |]. intros dep I. destruct (AA eq_refl dep I) as (y & Y).
    unfold put. destruct (string_dec dep v) as [-> | NE]; [exists x; apply (dget_dset_eq _ String.eqb_eq) |]. exists y. rewrite (dget_dset_neq _ String.eqb_eq) by exact NE. exact Y.
  Qed.
  (** A loaded variable is served whatever the prefix: data of one run are given for another. *)
  Theorem C55_prefix n v prefix d x : look d v = Some x -> size x <> 0 -> check n v prefix d = (Ok true, d).
  Proof. intros L S. rewrite check_eq. assert (M : dmem String.eqb v d = true) by (apply dmem_look; eauto). rewrite M. unfold finish, get, dget_err. rewrite L. cbn [bind]. unfold log_stats. destruct (size x =? 0) eqn:E; [lia | reflexivity]. Qed.
  (** A coordinate file whose lines differ raises AssertionError, but its first line stays loaded: the same
      request then succeeds. *)
  Theorem C55_bad_coordinate n v prefix d first rows : look d v = None -> In v ["X"; "Y"; "Z"]%string -> files (prefix ++ "." ++ v)%string = Some (R2 (first :: rows)) -> 3 < zlen first ->
    steady (skipn 3 first) (List.map (skipn 3) (first :: rows)) = false ->
    exists d', check n v prefix d = (Err AssertionError, d') /\ look d' v = Some (V1 (skipn 3 first)) /\ forall m p, check m v p d' = (Ok true, d').
  Proof.
    intros N C FV L ST. assert (CO : existsb (String.eqb v) coordinates = true) by (apply coord_dec; exact C). exists (put v (V1 (skipn 3 first)) d). split; [| split; [apply put_same |]].
    - rewrite check_eq. apply dmem_none in N. rewrite N. unfold read_data. rewrite FV, CO. change (@after3 F) with (@skipn F 3). rewrite ST. reflexivity.
    - intros m p. apply (C55_prefix m v p _ (V1 (skipn 3 first))); [apply put_same |]. cbn [size]. apply after3_len. exact L.
  Qed.
  (** The times are those of the first table read. *)
  Theorem C55_time n v prefix d rows : look d v = None -> ~ In v ["X"; "Y"; "Z"]%string -> v <> "time"%string -> files (prefix ++ "." ++ v)%string = Some (R2 rows) -> rows <> [] -> Forall (fun row => 3 < zlen row) rows ->
    exists t, Forall2 (fun row y => nth_error row 1 = Some y) rows t /\
      look (snd (check n v prefix d)) "time" = match look d "time" with Some t' => Some t' | None => Some (V1 t) end.
  Proof.
    intros N C NT FV NE AL. assert (CO : existsb (String.eqb v) coordinates = false). { destruct (existsb _ _) eqn:E; [apply coord_dec in E; contradiction | reflexivity]. }
    assert (M : exists t, mapM (fun row => py_get row 1) rows = Ok t /\ Forall2 (fun row y => nth_error row 1 = Some y) rows t).
    { clear -AL. induction rows as [| r rows IH]; [exists []; split; [reflexivity | constructor] |]. apply Forall_cons_iff in AL. destruct AL as (A & B). destruct (IH B) as (t & T1 & T2). destruct (py_get_total r 1) as (y & Hy); [lia |]. exists (y :: t). cbn [mapM]. rewrite Hy. cbn [bind]. rewrite T1. split; [reflexivity |].
      constructor; [| exact T2]. unfold py_get in Hy. cbn -[nth_error] in Hy. change (Pos.to_nat 1) with 1%nat in Hy. destruct (nth_error r 1); congruence. }
    destruct M as (t & M1 & M2). exists t. split; [exact M2 |]. rewrite check_eq. apply dmem_none in N. rewrite N. unfold read_data. rewrite FV, CO, M1.
    assert (LT : look (put v (V2 (List.map after3 rows)) d) "time" = look d "time") by (apply (dget_dset_neq _ String.eqb_eq); congruence).
    destruct (dmem String.eqb "time" (put v (V2 (List.map after3 rows)) d)) eqn:T.
    - rewrite finish_snd, LT. apply dmem_look in T. destruct T as (y & T). rewrite LT in T. rewrite T. reflexivity.
    - rewrite finish_snd, put_same. apply dmem_none in T. rewrite LT in T. rewrite T. reflexivity.
  Qed.
End Probes.
Print Assumptions C55_kept.
Print Assumptions C55_terminates.
Print Assumptions C55_check.
Print Assumptions C55_sources.
Print Assumptions C55_prefix.
Print Assumptions C55_bad_coordinate.
Print Assumptions C55_time.

(** ** Concrete case: files for the pressure and the density and one velocity component only; with them
    the sound speed is computed, the velocity is not; with all components the Mach number is. *)
Definition ex_row (k : Z) : list Z := [0; 100 + k; 2; k; k + 1].
Definition ex_files (s : string) : option (rdata (F := Z)) :=
  if existsb (String.eqb s) ["run.P"; "run.RHO"; "run.U-X"]%string then Some (R2 [ex_row 1; ex_row 2]) else if String.eqb s "run.X" then Some (R1 (ex_row 7)) else None.
Definition ex_files_uvw (s : string) : option (rdata (F := Z)) := if existsb (String.eqb s) ["run.U-Y"; "run.U-Z"]%string then Some (R2 [ex_row 3; ex_row 4]) else ex_files s.
Definition op2 (x y : values (F := Z)) : res (values (F := Z)) := match x, y with V2 a, V2 b => Ok (V2 (List.map (fun '(r, s) => List.map (fun '(p, q) => p + q) (combine r s)) (combine a b))) | _, _ => Err ValueError end.
Definition op3 (x y z : values (F := Z)) : res (values (F := Z)) := v <- op2 x y ;; op2 v z.
Definition ex_check fs := check_data op3 op2 op2 op2 op2 op2 (fun _ _ => true) fs.
Example c55_partial : let '(r, d) := ex_check ex_files 2 "Mach"%string "run"%string [] in
  r = Err NameError /\ dkeys d = ["U-X"; "time"]%string /\ dget String.eqb "time"%string d = Some (V1 [101; 102]).
Proof. vm_compute. auto. Qed.
Example c55_full : let '(r, d) := ex_check ex_files_uvw 2 "Mach"%string "run"%string [] in
  r = Ok true /\ dkeys d = ["U-X"; "time"; "U-Y"; "U-Z"; "U"; "P"; "RHO"; "Asound"; "Mach"]%string.
Proof. vm_compute. auto. Qed.
(** The hypotheses of C55_check hold here. *)
Example c55_good : good op3 op2 op2 op2 op2 op2 (fun _ _ => true) ex_files_uvw "run" [].
Proof.
  assert (FI : forall v, ex_files_uvw ("run." ++ v)%string = Some (R2 [ex_row 1; ex_row 2]) \/ ex_files_uvw ("run." ++ v)%string = Some (R2 [ex_row 3; ex_row 4]) \/ ex_files_uvw ("run." ++ v)%string = Some (R1 (ex_row 7)) \/ ex_files_uvw ("run." ++ v)%string = None).
  { intros v. unfold ex_files_uvw. destruct (existsb _ _); [auto |]. unfold ex_files. destruct (existsb _ _); [auto |]. destruct (String.eqb _ "run.X"); auto. }
  assert (VP : forall v x, value op3 op2 op2 op2 op2 op2 ex_files_uvw "run" [] v x -> In v ["U-X"; "U-Y"; "U-Z"; "P"; "RHO"]%string -> x = V2 [[1; 2]; [2; 3]] \/ x = V2 [[3; 4]; [4; 5]]).
  { intros v x H I. cbn in I. decompose [or] I; subst; try contradiction; inversion H; subst; try (match goal with H : file _ _ _ = Some _ |- _ => vm_compute in H; injection H as <-; cbn; auto end); try discriminate; try (match goal with C : is_coord _ |- _ => cbn in C; decompose [or] C; try discriminate; contradiction end). }
  assert (VU : forall x, value op3 op2 op2 op2 op2 op2 ex_files_uvw "run" [] "U" x -> exists a b c e, x = V2 [[a; b]; [c; e]]).
  { intros u H. inversion H; subst; try discriminate. destruct (VP _ _ H1 ltac:(cbn; tauto)) as [-> | ->], (VP _ _ H2 ltac:(cbn; tauto)) as [-> | ->], (VP _ _ H3 ltac:(cbn; tauto)) as [-> | ->]; cbn in H4; injection H4 as <-; eauto 10. }
  assert (VA : forall x, value op3 op2 op2 op2 op2 op2 ex_files_uvw "run" [] "Asound" x -> exists a b c e, x = V2 [[a; b]; [c; e]]).
  { intros u H. inversion H; subst; try discriminate. destruct (VP _ _ H1 ltac:(cbn; tauto)) as [-> | ->], (VP _ _ H2 ltac:(cbn; tauto)) as [-> | ->]; cbn in H3; injection H3 as <-; eauto 10. }
  constructor.
  - intros v. unfold good_file, file. change ("run" ++ "." ++ v)%string with ("run." ++ v)%string. destruct (FI v) as [-> | [-> | [-> | ->]]]; [| | reflexivity | exact I]; (split; [discriminate |]); (split; [| reflexivity]); (constructor; [reflexivity |]); (constructor; [reflexivity |]); constructor.
  - discriminate.
  - intros x y z X Y Z. destruct (VP _ _ X ltac:(cbn; tauto)) as [-> | ->], (VP _ _ Y ltac:(cbn; tauto)) as [-> | ->], (VP _ _ Z ltac:(cbn; tauto)) as [-> | ->]; eexists; (split; [reflexivity | vm_compute; discriminate]).
  - intros x y X Y. destruct (VU _ X) as (a & b & c & e & ->). destruct (VA _ Y) as (a' & b' & c' & e' & ->). eexists; (split; [reflexivity | vm_compute; discriminate]).
  - intros x y X Y. destruct (VP _ _ X ltac:(cbn; tauto)) as [-> | ->], (VP _ _ Y ltac:(cbn; tauto)) as [-> | ->]; eexists; (split; [reflexivity | vm_compute; discriminate]).
  - intros x y X Y. destruct (VA _ Y) as (a' & b' & c' & e' & ->). destruct (VP _ _ X ltac:(cbn; tauto)) as [-> | ->]; eexists; (split; [reflexivity | vm_compute; discriminate]).
  - intros x y X Y. destruct (VA _ Y) as (a' & b' & c' & e' & ->). destruct (VP _ _ X ltac:(cbn; tauto)) as [-> | ->]; eexists; (split; [reflexivity | vm_compute; discriminate]).
  - intros x y X Y. destruct (VP _ _ X ltac:(cbn; tauto)) as [-> | ->], (VP _ _ Y ltac:(cbn; tauto)) as [-> | ->]; eexists; (split; [reflexivity | vm_compute; discriminate]).
Qed.
