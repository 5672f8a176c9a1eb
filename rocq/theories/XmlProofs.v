(** * Lemmas on texts and trees. *)
From Coq Require Import Ascii Sorted Lia.
From Verif Require Import Py PyFacts Vtk Files FilesSpec FilesProofs Hdf5 Hdf5Proofs XmlSpec.
Local Open Scope string_scope.

Lemma las_app a b : list_ascii_of_string (a ++ b) = (list_ascii_of_string a ++ list_ascii_of_string b)%list.
Proof. induction a as [|c a IH]; cbn; [reflexivity|]. rewrite IH. reflexivity. Qed.
Lemma each_app P a b : each P (a ++ b) <-> each P a /\ each P b.
Proof. unfold each. rewrite las_app. apply Forall_app. Qed.
Lemma each_impl (P Q : ascii -> Prop) s : (forall c, P c -> Q c) -> each P s -> each Q s.
Proof. intros H. unfold each. apply Forall_impl. exact H. Qed.
Lemma sapp_assoc a b c : (a ++ b) ++ c = a ++ b ++ c.
Proof. induction a as [|x a IH]; cbn; [reflexivity|]. rewrite IH. reflexivity. Qed.
Lemma sapp_nil a : a ++ "" = a.
Proof. induction a as [|x a IH]; cbn; [reflexivity|]. rewrite IH. reflexivity. Qed.

Lemma as_is_app a b : as_is a -> as_is b -> as_is (a ++ b).
Proof. intros. apply each_app. split; assumption. Qed.
Lemma chars_las s : chars s = list_ascii_of_string s.
Proof. reflexivity. Qed.
Lemma as_is_dec n : as_is (dec n).
Proof.
  pose proof (dec_digits n) as H. unfold as_is, each. rewrite <- chars_las. revert H. apply Forall_impl. intros c Hc. unfold digits in Hc. cbn in Hc. repeat split; intros ->; intuition discriminate.
Qed.
Lemma as_is_zeros n : as_is (zeros n).
Proof. induction n as [|n IH]; [constructor|]. cbn [zeros]. constructor; [repeat split; discriminate|exact IH]. Qed.
Ltac lit := unfold as_is, each; cbn; repeat constructor; discriminate.
Lemma as_is_step k : as_is (step_name k).
Proof. unfold step_name, pad6. apply as_is_app; [lit|]. apply as_is_app; [apply as_is_zeros|apply as_is_dec]. Qed.
Lemma as_is_concat sep l : as_is sep -> Forall as_is l -> as_is (String.concat sep l).
Proof.
  intros Hs. induction l as [|a l IH]; intros H; [constructor|]. inversion H as [|? ? Ha Hl]; subst. destruct l as [|b l]; [exact Ha|].
  cbn [String.concat]. apply as_is_app; [exact Ha|]. apply as_is_app; [exact Hs|]. apply IH. exact Hl.
Qed.
Lemma as_is_newline : as_is newline. Proof. lit. Qed.
Lemma blank_newline : blank newline. Proof. constructor; [right; reflexivity|constructor]. Qed.

Definition letterb (c : ascii) : bool := let n := nat_of_ascii c in ((65 <=? n) && (n <=? 90) || (97 <=? n) && (n <=? 122))%nat.
Lemma name_b s : s <> "" -> forallb letterb (list_ascii_of_string s) = true -> xml_name s.
Proof.
  intros H0 H. split; [exact H0|]. unfold each. rewrite Forall_forall. rewrite forallb_forall in H. intros c Hc. specialize (H c Hc). unfold letterb in H. unfold letter.
  destruct (Nat.leb_spec 65 (nat_of_ascii c)), (Nat.leb_spec (nat_of_ascii c) 90), (Nat.leb_spec 97 (nat_of_ascii c)), (Nat.leb_spec (nat_of_ascii c) 122); cbn in H; try discriminate; lia.
Qed.
Ltac name := apply name_b; [discriminate|vm_compute; reflexivity].
Ltac not_in := cbn; intuition discriminate.

(** Lines, each after an end of line. *)
Fixpoint body (ls : list string) : string := match ls with [] => "" | l :: ls' => newline ++ l ++ body ls' end.
Lemma body_app a b : body (a ++ b)%list = body a ++ body b.
Proof. induction a as [|l a IH]; cbn [app body]; [reflexivity|]. rewrite IH, !sapp_assoc. reflexivity. Qed.
Lemma concat_body a ls : String.concat newline (a :: ls) = a ++ body ls.
Proof.
  revert a. induction ls as [|b ls IH]; intros a; [cbn; rewrite sapp_nil; reflexivity|].
  change (String.concat newline (a :: b :: ls)) with (a ++ newline ++ String.concat newline (b :: ls)). rewrite IH. reflexivity.
Qed.

(** Lines that say the trees [l] wherever they are put. *)
Definition says (ls : list string) (l : list xml) : Prop := forall s' l', xml_content s' l' -> xml_content (body ls ++ s') (l ++ l')%list.
Lemma says_nil : says [] []. Proof. intros s' l' H. exact H. Qed.
Lemma says_app a b la lb : says a la -> says b lb -> says (a ++ b)%list (la ++ lb)%list.
Proof. intros Ha Hb s' l' H. rewrite body_app, sapp_assoc, <- app_assoc. apply Ha, Hb. exact H. Qed.
Lemma says_elem a ls t : xml_elem (String.concat newline (a :: ls)) t -> says (a :: ls) [t].
Proof.
  intros H s' l' Hs. cbn [body app]. rewrite concat_body in H. rewrite !sapp_assoc, <- (sapp_assoc a). apply xc_elem; [apply blank_newline|exact H|exact Hs].
Qed.
Definition tag (n : string) (a : list (string * string)) : string := "<" ++ n ++ attrs_text a ++ ">".
Definition close (n : string) : string := "</" ++ n ++ ">".
Lemma node_elem n a inner l : xml_name n -> xml_attrs a -> says inner l -> xml_elem (String.concat newline ([tag n a] ++ inner ++ [close n])%list) (Node n a l).
Proof.
  intros Hn Ha Hi. cbn [app]. rewrite concat_body, body_app. cbn [body]. rewrite sapp_nil. unfold tag, close.
  rewrite !sapp_assoc. replace (body inner ++ newline ++ "</" ++ n ++ ">") with ((body inner ++ newline) ++ "</" ++ n ++ ">") by apply sapp_assoc.
  apply xe_node; [exact Hn|exact Ha|]. specialize (Hi newline [] (xc_blank _ blank_newline)). rewrite app_nil_r in Hi. exact Hi.
Qed.
Lemma node_says n a inner l : xml_name n -> xml_attrs a -> says inner l -> says ([tag n a] ++ inner ++ [close n])%list [Node n a l].
Proof. intros Hn Ha Hi. apply says_elem. apply node_elem; assumption. Qed.
Lemma empty_says n a : xml_name n -> xml_attrs a -> says ["<" ++ n ++ attrs_text a ++ "/>"] [Node n a []].
Proof. intros Hn Ha. apply says_elem. cbn [String.concat]. apply xe_empty; assumption. Qed.


Lemma item_says dims f path : as_is dims -> as_is f -> as_is path -> says (data_item dims f path) [item dims (f ++ ":" ++ path)].
Proof.
  intros Hd Hf Hp. unfold data_item, item.
  apply says_elem. rewrite concat_body. cbn [body]. rewrite sapp_nil.
  set (t := f ++ ":" ++ path).
  replace (("<DataItem Dimensions=" ++ q ++ dims ++ q ++ " Format=" ++ q ++ "HDF" ++ q ++ ">") ++ newline ++ t ++ newline ++ "</DataItem>")
    with ("<" ++ "DataItem" ++ attrs_text [("Dimensions", dims); ("Format", "HDF")] ++ ">" ++ (newline ++ t ++ newline) ++ "</" ++ "DataItem" ++ ">").
  2:{ cbn [attrs_text fold_right fst snd]. unfold dquote, q. rewrite !sapp_assoc. cbn [append]. repeat (f_equal; []). reflexivity. }
  refine (xe_node "DataItem" [("Dimensions", dims); ("Format", "HDF")] (newline ++ t ++ newline) [Text (newline ++ t ++ newline)] _ _ _); [name| |].
  - split; [constructor; [split; [name|exact Hd]|constructor; [split; [name|lit]|constructor]]|constructor; [not_in|constructor; [not_in|constructor]]].
  - apply xc_text.
    + apply as_is_app; [apply as_is_newline|]. apply as_is_app; [|apply as_is_newline]. unfold t. apply as_is_app; [exact Hf|]. apply as_is_app; [lit|exact Hp].
    + intros H. apply each_app in H. destruct H as [_ H]. apply each_app in H. destruct H as [H _]. unfold t in H. apply each_app in H. destruct H as [_ H]. inversion H as [|? ? [E|E] _]; discriminate.
Qed.

(** ** A text has one tree *)
Scheme xml_elem_mut := Minimality for xml_elem Sort Prop
  with xml_content_mut := Minimality for xml_content Sort Prop.
Combined Scheme xml_mut from xml_elem_mut, xml_content_mut.

Definition stops (P : ascii -> Prop) (y : string) : Prop := match y with "" => True | String c _ => ~ P c end.
Lemma span P x : forall x' y y', each P x -> each P x' -> stops P y -> stops P y' -> x ++ y = x' ++ y' -> x = x' /\ y = y'.
Proof.
  induction x as [|c x IH]; intros x' y y' Hx Hx' Hy Hy' E.
  - destruct x' as [|c' x']; [split; [reflexivity|exact E]|]. cbn [append] in E. rewrite E in Hy. inversion Hx'; subst. contradiction.
  - inversion Hx as [|? ? Hc Hx0]; subst. destruct x' as [|c' x']; cbn [append] in E.
    + rewrite <- E in Hy'. contradiction.
    + injection E as -> E. inversion Hx' as [|? ? _ Hx0']; subst. destruct (IH x' y y' Hx0 Hx0' Hy Hy' E) as [-> ->]. split; reflexivity.
Qed.
Definition ends (e : string) : Prop := match e with String c _ => c = ">"%char \/ c = "/"%char | "" => False end.
Lemma not_letter c : c = " "%char \/ c = "="%char \/ c = ">"%char \/ c = "/"%char -> ~ letter c.
Proof. intros H. unfold letter. repeat destruct H as [->|H]; try (cbn; lia). subst. cbn. lia. Qed.
Lemma attrs_stop a e : ends e -> stops letter (attrs_text a ++ e).
Proof.
  intros He. destruct a as [|(k, v) a]; cbn [attrs_text fold_right append stops].
  - destruct e as [|c e]; [destruct He|]. cbn. apply not_letter. cbn in He. tauto.
  - apply not_letter. tauto.
Qed.
Lemma attrs_one a : forall a' e e', xml_attrs a -> xml_attrs a' -> ends e -> ends e' -> attrs_text a ++ e = attrs_text a' ++ e' -> a = a' /\ e = e'.
Proof.
  induction a as [|(k, v) a IH]; intros a' e e' Ha Ha' He He' E.
  - destruct a' as [|(k', v') a']; [split; [reflexivity|exact E]|]. cbn in E. rewrite E in He. destruct He; discriminate.
  - destruct a' as [|(k', v') a'].
    + cbn in E. rewrite <- E in He'. destruct He'; discriminate.
    + destruct Ha as [Ha Hn], Ha' as [Ha' Hn']. inversion Ha as [|? ? [Hk Hv] Ha0]; subst. inversion Ha' as [|? ? [Hk' Hv'] Ha0']; subst. cbn [fst snd List.map] in *.
      inversion Hn as [|? ? _ Hn0]; subst. inversion Hn' as [|? ? _ Hn0']; subst.
      cbn [attrs_text fold_right fst snd] in E. fold (attrs_text a) in E. fold (attrs_text a') in E. rewrite !sapp_assoc in E. cbn [append] in E. injection E as E.
      apply span with (P := letter) in E; [|apply Hk|apply Hk'|cbn; apply not_letter; tauto|cbn; apply not_letter; tauto].
      destruct E as [-> E]. unfold dquote in E. cbn [append] in E. injection E as E. rewrite ?sapp_assoc in E. cbn [append] in E.
      apply span with (P := fun c => c <> "<"%char /\ c <> "&"%char /\ c <> """"%char) in E; [|exact Hv|exact Hv'|cbn; tauto|cbn; tauto].
      destruct E as [-> E]. injection E as E. destruct (IH a' e e') as [-> ->]; try assumption; [split; assumption|split; assumption|]. split; reflexivity.
Qed.
Lemma tag_one n a e n' a' e' : xml_name n -> xml_attrs a -> ends e -> xml_name n' -> xml_attrs a' -> ends e' ->
  "<" ++ n ++ attrs_text a ++ e = "<" ++ n' ++ attrs_text a' ++ e' -> n = n' /\ a = a' /\ e = e'.
Proof.
  intros Hn Ha He Hn' Ha' He' E. cbn [append] in E. injection E as E. apply span with (P := letter) in E; [|apply Hn|apply Hn'|apply attrs_stop; exact He|apply attrs_stop; exact He'].
  destruct E as [-> E]. apply attrs_one in E; try assumption. destruct E as [-> ->]. repeat split; reflexivity.
Qed.
Lemma blank_as_is s : blank s -> as_is s.
Proof. apply each_impl. intros c [->| ->]; repeat split; discriminate. Qed.
Lemma elem_starts s t : xml_elem s t -> exists c r, s = String "<" (String c r) /\ letter c.
Proof.
  intros H. destruct H as [n a Hn _|n a s l Hn _ _]; destruct Hn as [H0 H1]; destruct n as [|c n]; try congruence; inversion H1; subst; cbn [append]; eexists c, _; split; try reflexivity; assumption.
Qed.
Lemma stop_as_is r : stops (fun c => c <> "<"%char /\ c <> "&"%char /\ c <> """"%char) (String "<" r).
Proof. cbn. tauto. Qed.

Lemma append_inj a b c : a ++ b = a ++ c -> b = c.
Proof. induction a as [|x a IH]; cbn; [tauto|]. intros H. injection H as H. exact (IH H). Qed.
Definition shut (r : string) : string := "</" ++ r.
Lemma one_tree :
  (forall s t, xml_elem s t -> forall s' t' r r', xml_elem s' t' -> s ++ r = s' ++ r' -> s = s' /\ t = t') /\
  (forall s l, xml_content s l -> forall s' l' r r', xml_content s' l' -> s ++ shut r = s' ++ shut r' -> s = s' /\ l = l').
Proof.
  apply xml_mut.
  - intros n a Hn Ha s' t' r r' H' E. destruct H' as [n' a' Hn' Ha'|n' a' s' l' Hn' Ha' Hc'].
    + rewrite !sapp_assoc in E. apply tag_one in E; try assumption; [|cbn; tauto|cbn; tauto]. destruct E as (-> & -> & _). split; reflexivity.
    + rewrite !sapp_assoc in E. apply tag_one in E; try assumption; [|cbn; tauto|cbn; tauto]. destruct E as (_ & _ & E). discriminate.
  - intros n a s l Hn Ha Hc IH s' t' r r' H' E. destruct H' as [n' a' Hn' Ha'|n' a' s' l' Hn' Ha' Hc'].
    + rewrite !sapp_assoc in E. apply tag_one in E; try assumption; [|cbn; tauto|cbn; tauto]. destruct E as (_ & _ & E). discriminate.
    + rewrite !sapp_assoc in E. apply tag_one in E; try assumption; [|cbn; tauto|cbn; tauto]. destruct E as (-> & -> & E). cbn [append] in E. injection E as E.
      destruct (IH s' l' _ _ Hc' E) as [-> ->]. split; reflexivity.
  - intros s Hs s' l' r r' H' E. destruct H' as [s' Hs'|s' Hs' Hnb|w s1 t s2 l Hw He Hc].
    + apply span with (P := fun c => c <> "<"%char /\ c <> "&"%char /\ c <> """"%char) in E; [destruct E as [-> _]; split; reflexivity|apply blank_as_is; exact Hs|apply blank_as_is; exact Hs'|apply stop_as_is|apply stop_as_is].
    + apply span with (P := fun c => c <> "<"%char /\ c <> "&"%char /\ c <> """"%char) in E; [destruct E as [-> _]; contradiction|apply blank_as_is; exact Hs|exact Hs'|apply stop_as_is|apply stop_as_is].
    + destruct (elem_starts s1 t He) as (c & r1 & -> & Hl). rewrite !sapp_assoc in E.
      apply span with (P := fun c => c <> "<"%char /\ c <> "&"%char /\ c <> """"%char) in E; [|apply blank_as_is; exact Hs|apply blank_as_is; exact Hw|apply stop_as_is|apply stop_as_is].
      destruct E as [_ E]. cbn [append] in E. injection E as E _. subst c. exfalso. revert Hl. apply not_letter. tauto.
  - intros s Hs Hnb s' l' r r' H' E. destruct H' as [s' Hs'|s' Hs' Hnb'|w s1 t s2 l Hw He Hc].
    + apply span with (P := fun c => c <> "<"%char /\ c <> "&"%char /\ c <> """"%char) in E; [destruct E as [-> _]; contradiction|exact Hs|apply blank_as_is; exact Hs'|apply stop_as_is|apply stop_as_is].
    + apply span with (P := fun c => c <> "<"%char /\ c <> "&"%char /\ c <> """"%char) in E; [destruct E as [-> _]; split; reflexivity|exact Hs|exact Hs'|apply stop_as_is|apply stop_as_is].
    + destruct (elem_starts s1 t He) as (c & r1 & -> & Hl). rewrite !sapp_assoc in E.
      apply span with (P := fun c => c <> "<"%char /\ c <> "&"%char /\ c <> """"%char) in E; [|exact Hs|apply blank_as_is; exact Hw|apply stop_as_is|apply stop_as_is].
      destruct E as [-> _]. contradiction.
  - intros w s t s2 l Hw He IHe Hc IHc s' l' r r' H' E. destruct (elem_starts s t He) as (c & r1 & Es & Hl). destruct H' as [s' Hs'|s' Hs' Hnb'|w' s1' t' s2' l' Hw' He' Hc'].
    + subst s. rewrite !sapp_assoc in E.
      apply span with (P := fun c => c <> "<"%char /\ c <> "&"%char /\ c <> """"%char) in E; [|apply blank_as_is; exact Hw|apply blank_as_is; exact Hs'|apply stop_as_is|apply stop_as_is].
      destruct E as [_ E]. cbn [append] in E. injection E as E _. subst c. exfalso. revert Hl. apply not_letter. tauto.
    + subst s. rewrite !sapp_assoc in E.
      apply span with (P := fun c => c <> "<"%char /\ c <> "&"%char /\ c <> """"%char) in E; [|apply blank_as_is; exact Hw|exact Hs'|apply stop_as_is|apply stop_as_is].
      destruct E as [-> _]. contradiction.
    + destruct (elem_starts s1' t' He') as (c' & r1' & Es' & Hl'). rewrite !sapp_assoc in E.
      apply span with (P := fun c => c <> "<"%char /\ c <> "&"%char /\ c <> """"%char) in E; [|apply blank_as_is; exact Hw|apply blank_as_is; exact Hw'|rewrite Es; apply stop_as_is|rewrite Es'; apply stop_as_is].
      destruct E as [-> E]. destruct (IHe _ _ _ _ He' E) as [-> ->]. apply append_inj in E. destruct (IHc _ _ _ _ Hc' E) as [-> ->]. split; reflexivity.
Qed.
