(** * Property C50 (memoize). *)
From Coq Require Import Lia List.
From Verif Require Import Py PyFacts Memo.

Section Memo.
  Context {S A B : Type} (eqb : A -> A -> bool) (hashable : A -> bool).
  (** Equality of keys is an equivalence. *)
  Hypothesis eq_refl_ : forall a, eqb a a = true.
  Hypothesis eq_sym_ : forall a b, eqb a b = eqb b a.
  Hypothesis eq_trans_ : forall a b c, eqb a b = true -> eqb b c = true -> eqb a c = true.
  Hypothesis hash_eq : forall a b, eqb a b = true -> hashable a = hashable b.

  Lemma dget_key (d : dict A B) a b : eqb a b = true -> dget eqb a d = dget eqb b d.
  Proof using eq_refl_ eq_sym_ eq_trans_.
    intros E. induction d as [| (k, v) d IH]; [reflexivity |]. cbn. replace (eqb a k) with (eqb b k); [destruct (eqb b k); auto |].
    destruct (eqb b k) eqn:H, (eqb a k) eqn:H'; try reflexivity.
    - rewrite (eq_trans_ _ _ _ E H) in H'. discriminate.
    - rewrite eq_sym_ in E. rewrite (eq_trans_ _ _ _ E H') in H. discriminate.
  Qed.
  Lemma dget_dset_key (d : dict A B) a b v : dget eqb a (dset eqb b v d) = if eqb a b then Some v else dget eqb a d.
  Proof using eq_refl_ eq_sym_ eq_trans_.
    induction d as [| (k, w) d IH]; [reflexivity |]. cbn. destruct (eqb b k) eqn:BK; cbn.
    - destruct (eqb a k) eqn:AK, (eqb a b) eqn:AB; try reflexivity.
      + rewrite eq_sym_ in BK. rewrite (eq_trans_ _ _ _ AK BK) in AB. discriminate.
      + rewrite (eq_trans_ _ _ _ AB BK) in AK. discriminate.
    - rewrite IH. destruct (eqb a k) eqn:AK, (eqb a b) eqn:AB; try reflexivity. rewrite eq_sym_ in AB. rewrite (eq_trans_ _ _ _ AB AK) in BK. discriminate.
  Qed.
  Lemma dset_new (d : dict A B) a v : dget eqb a d = None -> zlen (dset eqb a v d) = zlen d + 1.
  Proof. intros H. unfold zlen. induction d as [| (k, w) d IH]; [reflexivity |]. cbn [dget dset length] in *. destruct (eqb a k); [discriminate |]. cbn [List.length]. specialize (IH H). lia. Qed.

  (** *** Functions without effects *)
  Section Pure.
    Context (g : A -> res B).
    Hypothesis g_eq : forall a b, eqb a b = true -> g a = g b.
    Let f (s : S) (a : A) : S * res B := (s, g a).

    (** The calls for which the function has to be called: no equal argument before with a value. *)
    Fixpoint needed (seen l : list A) : list A :=
      match l with
      | [] => []
      | a :: l =>
          if negb (hashable a) then needed seen l
          else if existsb (eqb a) seen then needed seen l
          else a :: needed (if is_ok (g a) then a :: seen else seen) l
      end.
    Definition known (seen : list A) (c : dict A B) : Prop := forall a, dget eqb a c = if existsb (eqb a) seen then (match g a with Ok b => Some b | Err _ => None end) else None.

    Lemma call_all_pure l : forall (m : memo (S := S)) (seen : list A), known seen (mm_cache m) -> Forall (fun a => is_ok (g a) = true /\ hashable a = true) seen ->
      zlen (mm_cache m) = zlen seen ->
      exists seen' : list A, fst (call_all eqb hashable f m l) = List.map (fun a => if hashable a then g a else Err TypeError) l /\
        mm_calls (snd (call_all eqb hashable f m l)) = mm_calls m ++ needed seen l /\
        mm_misses (snd (call_all eqb hashable f m l)) = mm_misses m + zlen (needed seen l) /\
        mm_hits (snd (call_all eqb hashable f m l)) + mm_misses (snd (call_all eqb hashable f m l)) = mm_hits m + mm_misses m + zlen (filter hashable l) /\
        zlen (mm_cache (snd (call_all eqb hashable f m l))) = zlen seen' /\
        zlen seen' = zlen seen + zlen (filter (fun a => is_ok (g a)) (needed seen l)) /\ mm_state (snd (call_all eqb hashable f m l)) = mm_state m.
    Proof using eq_refl_ eq_sym_ eq_trans_ hash_eq g_eq.
      induction l as [| a l IH]; intros m seen K F L.
      - exists seen. cbn. rewrite app_nil_r. repeat split; try lia; auto.
      - cbn [call_all List.map filter needed]. unfold call. destruct (hashable a) eqn:HA; cbn [negb].
        + rewrite (K a). destruct (existsb (eqb a) seen) eqn:SE.
          * apply existsb_exists in SE. destruct SE as (b & IB & AB). rewrite Forall_forall in F. destruct (F b IB) as (OB & _). rewrite (g_eq _ _ AB). destruct (g b) as [v | e] eqn:GB; [| discriminate OB].
            set (m1 := Memo_ (mm_cache m) (mm_hits m + 1) (mm_misses m) (mm_state m) (mm_calls m)).
            destruct (IH m1 seen K (proj2 (Forall_forall _ _) F) L) as (seen' & R1 & R2 & R3 & R4 & R5 & R6 & R7). exists seen'.
            destruct (call_all eqb hashable f m1 l) as [rs m2] eqn:CA. cbn [fst snd] in *. cbn [m1 mm_calls mm_misses mm_hits mm_cache mm_state] in *.
            rewrite R1. split; [reflexivity |]. split; [exact R2 |]. split; [exact R3 |]. rewrite zlen_cons. split; [lia |]. auto.
          * cbn [f]. destruct (g a) as [v | e] eqn:GA; cbn [is_ok].
            -- set (m1 := Memo_ (dset eqb a v (mm_cache m)) (mm_hits m) (mm_misses m + 1) (mm_state m) (mm_calls m ++ [a])).
               assert (K1 : known (a :: seen) (mm_cache m1)).
               { intros b. cbn [m1 mm_cache existsb]. rewrite dget_dset_key, (K b). destruct (eqb b a) eqn:BA; cbn [orb]; [rewrite (g_eq _ _ BA), GA; reflexivity | reflexivity]. }
               assert (L1 : zlen (mm_cache m1) = zlen (a :: seen)). { cbn [m1 mm_cache]. rewrite zlen_cons, dset_new, L; [reflexivity |]. rewrite (K a), SE. reflexivity. }
               destruct (IH m1 (a :: seen) K1) as (seen' & R1 & R2 & R3 & R4 & R5 & R6 & R7); [constructor; [rewrite GA; auto | exact F] | exact L1 |]. exists seen'.
               destruct (call_all eqb hashable f m1 l) as [rs m2] eqn:CA. cbn [fst snd] in *. cbn [m1 mm_calls mm_misses mm_hits mm_cache mm_state filter] in *. rewrite GA. cbn [is_ok].
               rewrite R1, !zlen_cons in *. split; [reflexivity |]. rewrite <- app_assoc in R2. split; [exact R2 |]. split; [lia |]. split; [lia |]. split; [exact R5 |]. split; [lia | exact R7].
            -- set (m1 := Memo_ (mm_cache m) (mm_hits m) (mm_misses m + 1) (mm_state m) (mm_calls m ++ [a])).
               destruct (IH m1 seen K F L) as (seen' & R1 & R2 & R3 & R4 & R5 & R6 & R7). exists seen'.
               destruct (call_all eqb hashable f m1 l) as [rs m2] eqn:CA. cbn [fst snd] in *. cbn [m1 mm_calls mm_misses mm_hits mm_cache mm_state filter] in *. rewrite GA. cbn [is_ok].
               rewrite R1, !zlen_cons in *. split; [reflexivity |]. rewrite <- app_assoc in R2. split; [exact R2 |]. split; [lia |]. split; [lia |]. auto.
        + destruct (IH m seen K F L) as (seen' & R1 & R2 & R3 & R4 & R5 & R6 & R7). exists seen'. destruct (call_all eqb hashable f m l) as [rs m2] eqn:CA. cbn [fst snd] in *. rewrite R1. auto 10.
    Qed.

    (** C50: every call gives what the function gives (TypeError for arguments that cannot be keys);
        calls are hits or misses; the function is called once for each miss, and never for an argument
        equal to one that already gave a value; the cache has one entry for each call that gave a value. *)
    Theorem C50_transparent s l :
      let '(rs, m) := call_all eqb hashable f (new_memo s) l in let '(hits, misses, size) := cache_info m in
      rs = List.map (fun a => if hashable a then g a else Err TypeError) l /\
      hits + misses = zlen (filter hashable l) /\ misses = zlen (mm_calls m) /\ size = zlen (filter (fun a => is_ok (g a)) (mm_calls m)) /\
      mm_calls m = needed [] l.
    Proof using eq_refl_ eq_sym_ eq_trans_ hash_eq g_eq.
      destruct (call_all_pure l (new_memo s) []) as (seen' & R1 & R2 & R3 & R4 & R5 & R6 & R7); [intros a; reflexivity | constructor | reflexivity |].
      destruct (call_all eqb hashable f (new_memo s) l) as [rs m]. cbn [fst snd] in *. unfold cache_info. cbn [new_memo mm_calls mm_misses mm_hits] in *. cbn [app] in R2.
      split; [exact R1 |]. split; [lia |]. rewrite R2. split; [lia |]. split; [rewrite R5, R6, zlen_nil; reflexivity | reflexivity].
    Qed.
    (** When the function gives a value for all arguments, it is called exactly once for each class of
        equal arguments, the first time one of them is used. *)
    Lemma needed_once l : (forall a, In a l -> is_ok (g a) = true /\ hashable a = true) -> forall seen,
      (forall a, In a l -> existsb (eqb a) seen = true \/ exists b, In b (needed seen l) /\ eqb a b = true) /\
      (forall a, In a (needed seen l) -> In a l /\ existsb (eqb a) seen = false) /\
      (forall i j a b, nth_error (needed seen l) i = Some a -> nth_error (needed seen l) j = Some b -> i <> j -> eqb a b = false).
    Proof using eq_refl_ eq_sym_ eq_trans_.
      induction l as [| a l IH]; intros OK seen; [split; [intros a [] | split; [intros a [] | intros [|] j a b H; discriminate]] |].
      assert (OK' : forall b, In b l -> is_ok (g b) = true /\ hashable b = true) by (intros b I; apply OK; right; exact I). destruct (OK a (or_introl eq_refl)) as (OA & HA).
      cbn [needed]. rewrite HA, OA. cbn [negb]. destruct (existsb (eqb a) seen) eqn:SE.
      - destruct (IH OK' seen) as (I1 & I2 & I3). split; [| split; [| exact I3]].
        + intros b [<- | I]; [left; exact SE | exact (I1 b I)].
        + intros b I. destruct (I2 b I). split; [right |]; assumption.
      - destruct (IH OK' (a :: seen)) as (I1 & I2 & I3). split; [| split].
        + intros b [<- | I]; [right; exists a; split; [left; reflexivity | apply eq_refl_] |]. destruct (I1 b I) as [H | (c & C1 & C2)]; [| right; exists c; split; [right; exact C1 | exact C2]].
          cbn in H. apply orb_true_iff in H. destruct H as [H | H]; [right; exists a; split; [left; reflexivity | exact H] | left; exact H].
        + intros b [<- | I]; [split; [left; reflexivity | exact SE] |]. destruct (I2 b I) as (J1 & J2). cbn in J2. apply orb_false_iff in J2. split; [right; exact J1 | apply J2].
        + intros [| i] [| j] x y H1 H2 NE; cbn in H1, H2; [congruence | | | apply (I3 i j); auto].
          * injection H1 as <-. apply nth_error_In in H2. destruct (I2 y H2) as (_ & J). cbn in J. apply orb_false_iff in J. rewrite eq_sym_. apply J.
          * injection H2 as <-. apply nth_error_In in H1. destruct (I2 x H1) as (_ & J). cbn in J. apply orb_false_iff in J. apply J.
    Qed.
    Theorem C50_once s l : (forall a, In a l -> is_ok (g a) = true /\ hashable a = true) ->
      let m := snd (call_all eqb hashable f (new_memo s) l) in
      (forall a, In a l -> exists b, In b (mm_calls m) /\ eqb a b = true) /\ (forall a, In a (mm_calls m) -> In a l) /\
      (forall i j a b, nth_error (mm_calls m) i = Some a -> nth_error (mm_calls m) j = Some b -> i <> j -> eqb a b = false) /\
      mm_misses m = zlen (mm_calls m) /\ zlen (mm_cache m) = zlen (mm_calls m).
    Proof using eq_refl_ eq_sym_ eq_trans_ hash_eq g_eq.
      intros OK m. assert (T := C50_transparent s l). unfold m. destruct (call_all eqb hashable f (new_memo s) l) as [rs m0]. cbn [snd]. cbn [cache_info] in T. destruct T as (_ & _ & T3 & T4 & T5).
      destruct (needed_once l OK []) as (I1 & I2 & I3). rewrite T5 in *. split; [| split; [| split; [exact I3 | split; [exact T3 |]]]].
      - intros a I. destruct (I1 a I) as [H | H]; [discriminate | exact H].
      - intros a I. apply (I2 a I).
      - rewrite T4. f_equal. clear -I2 OK. induction (needed [] l) as [| a q IH]; [reflexivity |]. cbn. destruct (OK a) as (O & _); [apply I2; left; reflexivity |]. rewrite O. f_equal. apply IH. intros b I. apply I2. right. exact I.
    Qed.
  End Pure.

  (** Any function, also with effects: one call of the memoized function calls it at most once, and not
      at all if an equal argument is in the cache; an exception is passed on, leaves the cache as it is
      and counts as a miss. *)
  Theorem C50_exception (f : S -> A -> S * res B) m a s e : hashable a = true -> dget eqb a (mm_cache m) = None -> f (mm_state m) a = (s, Err e) ->
    call eqb hashable f m a = (Err e, Memo_ (mm_cache m) (mm_hits m) (mm_misses m + 1) s (mm_calls m ++ [a])).
  Proof. intros H D F. unfold call. rewrite H, D, F. reflexivity. Qed.
  (** Equal arguments that the function tells apart (1 and True) get the value of the first one. *)
  Theorem C50_equal_keys (f : S -> A -> S * res B) s a b s' v : hashable a = true -> hashable b = true -> eqb b a = true -> f s a = (s', Ok v) ->
    fst (call_all eqb hashable f (new_memo s) [a; b]) = [Ok v; Ok v] /\ mm_calls (snd (call_all eqb hashable f (new_memo s) [a; b])) = [a].
  Proof. intros HA HB E F. cbn. unfold call. cbn. rewrite HA, F. cbn. rewrite HB. cbn. rewrite E. cbn. auto. Qed.
End Memo.
Print Assumptions C50_transparent.
Print Assumptions C50_once.
Print Assumptions C50_exception.
Print Assumptions C50_equal_keys.

(** ** Concrete cases: a function that fails on negative numbers; keys 1 and True. *)
Definition ex_g (n : Z) : res Z := if n <? 0 then Err ValueError else Ok (n * n).
Example c50_run : let '(rs, m) := call_all Z.eqb (fun _ => true) (fun (s : unit) n => (s, ex_g n)) (new_memo tt) [3; -1; 3; 2; -1; 2] in
  rs = [Ok 9; Err ValueError; Ok 9; Ok 4; Err ValueError; Ok 4] /\ cache_info m = (2, 4, 2) /\ mm_calls m = [3; -1; 2; -1].
Proof. cbn. repeat split. Qed.
Inductive key : Type := KInt (n : Z) | KBool (b : bool).
Definition key_num (k : key) : Z := match k with KInt n => n | KBool b => if b then 1 else 0 end.
Definition key_eqb (a b : key) : bool := key_num a =? key_num b.
Example c50_keys : (forall a, key_eqb a a = true) /\ (forall a b, key_eqb a b = key_eqb b a) /\ (forall a b c, key_eqb a b = true -> key_eqb b c = true -> key_eqb a c = true) /\
  fst (call_all key_eqb (fun _ => true) (fun (s : unit) k => (s, Ok (match k with KInt _ => "int" | KBool _ => "bool" end)%string)) (new_memo tt) [KInt 1; KBool true]) = [Ok "int"; Ok "int"]%string.
Proof. unfold key_eqb. split; [intros; apply Z.eqb_refl |]. split; [intros; apply Z.eqb_sym |]. split; [intros a b c H1 H2; lia | reflexivity]. Qed.
