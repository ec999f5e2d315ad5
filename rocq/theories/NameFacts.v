(** Replacing inside type names. *)
From Verif Require Import Base Bytes Values File Names ColType Interp.

Lemma strip_sep f : forall a c b, ~ In c f -> strip_prefix f (a ++ c :: b) = option_map (fun t => t ++ c :: b) (strip_prefix f a).
Proof.
  induction f as [|x f IH]; intros a c b N; [reflexivity|]. destruct a as [|y a]; cbn [strip_prefix app].
  - destruct (Z.eqb_spec x c) as [->|_]; [exfalso; apply N; now left|reflexivity].
  - destruct (x =? y); [|reflexivity]. apply IH. intros H. apply N. now right.
Qed.
Lemma strip_app f s t : strip_prefix f s = Some t -> s = f ++ t.
Proof.
  revert s. induction f as [|x f IH]; intros s E; cbn in E; [now injection E as ->|]. destruct s as [|y s]; [discriminate|].
  destruct (Z.eqb_spec x y) as [->|]; [|discriminate]. cbn. f_equal. now apply IH.
Qed.
Lemma strip_same f t : strip_prefix f (f ++ t) = Some t.
Proof. induction f as [|x f IH]; cbn; [reflexivity|]. now rewrite Z.eqb_refl. Qed.
Lemma strip_shorter f s t : f <> [] -> strip_prefix f s = Some t -> (length t < length s)%nat.
Proof. intros N E. apply strip_app in E. subst s. rewrite app_length. destruct f; [contradiction|cbn; lia]. Qed.

(** More fuel than characters changes nothing. *)
Lemma replace_more f to : f <> [] -> forall n m s, (length s < n)%nat -> (length s < m)%nat -> replace_fuel n f to s = replace_fuel m f to s.
Proof.
  intros NE. induction n as [|n IH]; intros m s Ln Lm; [lia|]. destruct m as [|m]; [lia|]. cbn [replace_fuel]. destruct s as [|c r]; [reflexivity|].
  destruct (strip_prefix f (c :: r)) as [t|] eqn:E.
  - apply strip_shorter in E; [|exact NE]. f_equal. apply IH; lia.
  - f_equal. apply IH; cbn [length] in *; lia.
Qed.
Lemma word_more f to : f <> [] -> forall n m p s, (length s < n)%nat -> (length s < m)%nat -> replace_word_fuel n p f to s = replace_word_fuel m p f to s.
Proof.
  intros NE. induction n as [|n IH]; intros m p s Ln Lm; [lia|]. destruct m as [|m]; [lia|]. cbn [replace_word_fuel]. destruct s as [|c r]; [reflexivity|].
  destruct (strip_prefix f (c :: r)) as [t|] eqn:E.
  - apply strip_shorter in E; [|exact NE]. f_equal. apply IH; lia.
  - f_equal. apply IH; cbn [length] in *; lia.
Qed.

(** A character that is not in the pattern separates. *)
Lemma replace_sep f to c a b : f <> [] -> ~ In c f -> replace f to (a ++ c :: b) = replace f to a ++ c :: replace f to b.
Proof.
  intros NE N. unfold replace. remember (replace_fuel (S (length b)) f to b) as R eqn:HR.
  assert (G : forall n a, (length a < n)%nat -> forall k, (length (a ++ c :: b) < k)%nat ->
     replace_fuel k f to (a ++ c :: b) = replace_fuel n f to a ++ c :: R).
  { clear a. induction n as [|n IH]; intros a L k Lk; [lia|]. destruct k as [|k]; [lia|]. destruct a as [|x a].
    - cbn [app] in *. cbn [replace_fuel]. pose proof (strip_sep f [] c b N) as SS; cbn [app] in SS; rewrite SS; clear SS. destruct f as [|y f]; [contradiction|]. cbn [strip_prefix option_map app].
      f_equal. rewrite HR. apply replace_more; [discriminate|cbn [length] in Lk; lia|lia].
    - cbn [app] in *. cbn [replace_fuel]. change (x :: a ++ c :: b) with ((x :: a) ++ c :: b). rewrite (strip_sep f (x :: a) c b N).
      destruct (strip_prefix f (x :: a)) as [t|] eqn:E; cbn [option_map].
      + apply strip_shorter in E; [|exact NE]. cbn [length] in *. rewrite IH; [now rewrite app_assoc|lia|]. rewrite !app_length in *. cbn [length] in *. lia.
      + cbn [app length] in *. f_equal. apply IH; lia. }
  apply G; lia.
Qed.
Lemma word_sep f to c a b : f <> [] -> ~ In c f -> is_alpha c = false -> replace_string (a ++ c :: b) f to = replace_string a f to ++ c :: replace_string b f to.
Proof.
  intros NE N A. unfold replace_string.
  assert (P : forall n s, (length s < n)%nat -> replace_word_fuel n (Some c) f to s = replace_word_fuel (S (length s)) None f to s).
  { intros n s L. rewrite (word_more f to NE n (S (length s))) by lia. cbn [replace_word_fuel]. destruct s as [|x r]; [reflexivity|].
    destruct (strip_prefix f (x :: r)) as [t|] eqn:E; [|reflexivity]. cbn [opt_alpha]. now rewrite A. }
  remember (replace_word_fuel (S (length b)) None f to b) as R eqn:HR.
  assert (G : forall n p a, (length a < n)%nat -> forall k, (length (a ++ c :: b) < k)%nat ->
     replace_word_fuel k p f to (a ++ c :: b) = replace_word_fuel n p f to a ++ c :: R).
  { clear a. induction n as [|n IH]; intros p a L k Lk; [lia|]. destruct k as [|k]; [lia|]. destruct a as [|x a].
    - cbn [app] in *. cbn [replace_word_fuel]. pose proof (strip_sep f [] c b N) as SS; cbn [app] in SS; rewrite SS; clear SS. destruct f as [|y f]; [contradiction|]. cbn [strip_prefix option_map app].
      f_equal. rewrite HR. apply P. cbn [length] in Lk; lia.
    - cbn [app] in *. cbn [replace_word_fuel]. change (x :: a ++ c :: b) with ((x :: a) ++ c :: b). rewrite (strip_sep f (x :: a) c b N).
      destruct (strip_prefix f (x :: a)) as [t|] eqn:E; cbn [option_map].
      + apply strip_shorter in E; [|exact NE]. cbn [length] in *. rewrite <- app_assoc.
        replace (opt_alpha (hd_error (t ++ c :: b))) with (opt_alpha (hd_error t)) by (destruct t; [cbn [app hd_error opt_alpha]; now rewrite A|reflexivity]).
        f_equal. apply IH; [lia|]. rewrite !app_length in *. cbn [length] in *. lia.
      + cbn [app length] in *. f_equal. apply IH; lia. }
  apply G; lia.
Qed.

(** Text without the first character of the pattern stays. *)
Lemma replace_stays x f to s : ~ In x s -> replace (x :: f) to s = s.
Proof.
  unfold replace. assert (G : forall n s, ~ In x s -> replace_fuel n (x :: f) to s = s); [|apply G].
  induction n as [|n IH]; intros [|c r] N; try reflexivity; cbn [replace_fuel strip_prefix].
  destruct (Z.eqb_spec x c) as [->|_]; [exfalso; apply N; now left|]. rewrite IH; [reflexivity|]. intros H. apply N. now right.
Qed.
Lemma word_stays x f to s : ~ In x s -> replace_string s (x :: f) to = s.
Proof.
  unfold replace_string. assert (G : forall n p s, ~ In x s -> replace_word_fuel n p (x :: f) to s = s); [|apply G].
  induction n as [|n IH]; intros p [|c r] N; cbn [replace_word_fuel strip_prefix]; try reflexivity.
  destruct (Z.eqb_spec x c) as [->|_]; [exfalso; apply N; now left|]. rewrite IH; [reflexivity|]. intros H. apply N. now right.
Qed.
(** So does text in which the pattern does not occur. *)
Lemma replace_absent f to s : f <> [] -> (forall a b, s <> a ++ f ++ b) -> replace f to s = s.
Proof.
  intros NE. unfold replace. generalize (S (length s)) as n. intros n. revert s. induction n as [|n IH]; intros s N; [reflexivity|]. cbn [replace_fuel].
  destruct s as [|c r]; [reflexivity|]. destruct (strip_prefix f (c :: r)) as [t|] eqn:E.
  - apply strip_app in E. exfalso. now apply (N [] t).
  - rewrite IH; [reflexivity|]. intros a b E'. apply (N (c :: a) b). cbn. now rewrite E'.
Qed.

(** ** Cleaning *)

Ltac sep c a b :=
  repeat (rewrite (replace_sep _ _ c a b) by (vm_compute; intuition discriminate)).
Lemma clean_sep c a b : is_alpha c = false -> Forall (fun f => ~ In c f)
   [bs "unsigned int"; bs "int"; bs "uint32_t32_t"; bs "int32_t32_t"; bs "uint32_t16_t"; bs "uint32_t8_t"; bs "int32_t16_t"; bs "int32_t8_t"; bs "int32_t64_t";
    bs "unsigned short"; bs "short"; bs "unsigned long"; bs "long"; bs " "] ->
  clean_ascii (a ++ c :: b) = clean_ascii a ++ c :: clean_ascii b.
Proof.
  intros A F. repeat match goal with H : Forall _ (_ :: _) |- _ => inversion H; clear H; subst end.
  unfold clean_ascii. rewrite replace_sep by (discriminate || assumption). rewrite word_sep by (discriminate || assumption).
  do 12 (rewrite replace_sep by (discriminate || assumption)). reflexivity.
Qed.
Lemma clean_vector s : clean_ascii (bs "vector<" ++ s ++ bs ">") = bs "vector<" ++ clean_ascii s ++ bs ">".
Proof.
  assert (E0 : forall x, bs "vector<" ++ x ++ bs ">" = bs "vector" ++ 60 :: (x ++ 62 :: [])) by reflexivity. rewrite !E0.
  rewrite clean_sep by (try reflexivity; repeat constructor; vm_compute; intuition discriminate).
  rewrite clean_sep by (try reflexivity; repeat constructor; vm_compute; intuition discriminate).
  assert (E1 : clean_ascii (bs "vector") = bs "vector") by (vm_compute; reflexivity). assert (E2 : clean_ascii [] = []) by (vm_compute; reflexivity).
  now rewrite E1, E2.
Qed.
Lemma ascii_vector s : ascii (bs "vector<" ++ s ++ bs ">") = ascii s.
Proof.
  unfold ascii. rewrite !forallb_app. change (forallb _ (bs "vector<")) with true. change (forallb _ (bs ">")) with true. cbn [andb]. apply andb_true_r.
Qed.

(** ** Rust names *)

Lemma find_absent f s : (forall a b, s <> a ++ f ++ b) -> find_sub f s = None.
Proof.
  induction s as [|c r IH]; intros N; cbn [find_sub].
  - destruct (strip_prefix f []) as [t|] eqn:E; [|reflexivity]. apply strip_app in E. exfalso. now apply (N [] t).
  - destruct (strip_prefix f (c :: r)) as [t|] eqn:E; [apply strip_app in E; exfalso; now apply (N [] t)|].
    rewrite IH; [reflexivity|]. intros a b E'. apply (N (c :: a) b). cbn. now rewrite E'.
Qed.
Lemma find_here f b : find_sub f (f ++ b) = Some ([], b).
Proof. destruct (f ++ b) eqn:E; cbn [find_sub]; rewrite <- E, strip_same; reflexivity. Qed.
Lemma find_char c a b : ~ In c a -> find_sub [c] (a ++ c :: b) = Some (a, b).
Proof.
  induction a as [|x a IH]; intros N.
  - apply (find_here [c] b).
  - cbn [app find_sub strip_prefix]. destruct (Z.eqb_spec c x) as [->|_]; [exfalso; apply N; now left|].
    rewrite IH; [reflexivity|]. intros H. apply N. now right.
Qed.
Lemma replace_all f to : f <> [] -> replace f to f = to.
Proof.
  intros NE. unfold replace. destruct f as [|c f]; [contradiction|]. pose proof (strip_same (c :: f) []) as E. rewrite app_nil_r in E.
  remember (c :: f) as g. cbn [replace_fuel]. rewrite Heqg at 1. rewrite E. destruct (length g); cbn [replace_fuel]; apply app_nil_r.
Qed.
Lemma in_replace c f to s : In c (replace f to s) -> In c s \/ In c to.
Proof.
  unfold replace. generalize (S (length s)) as n. intros n. revert s. induction n as [|n IH]; intros s H; [now left|]. cbn [replace_fuel] in H.
  destruct s as [|x r]; [destruct H|]. destruct (strip_prefix f (x :: r)) as [t|] eqn:E.
  - apply strip_app in E. apply in_app_iff in H as [H|H]; [now right|]. apply IH in H as [H|H]; [left|now right]. rewrite E. apply in_app_iff. now right.
  - destruct H as [->|H]; [left; now left|]. apply IH in H as [H|H]; [left; now right|now right].
Qed.

Lemma unique_char {A} (c : A) a b a' b' : ~ In c a -> ~ In c b -> a ++ c :: b = a' ++ c :: b' -> a = a' /\ b = b'.
Proof.
  revert a'. induction a as [|x a IH]; intros [|y a'] Na Nb E; cbn [app] in E.
  - injection E as E. now split.
  - exfalso. injection E as E1 E2. apply Nb. rewrite E2. apply in_app_iff. right. now left.
  - exfalso. injection E as E1 E2. apply Na. now left.
  - injection E as E1 E2. destruct (IH a') as [-> ->]; auto. + intros H. apply Na. now right. + now subst.
Qed.

Lemma split_no (c : Z) a f b s : s = a ++ f ++ b -> In c f -> In c s.
Proof. intros -> H. apply in_app_iff. right. apply in_app_iff. now left. Qed.

(** *** Without brackets *)

Lemma turn_plain cpp rust s : ~ In 91 s -> ~ In 91 rust -> rust_name (cpp, rust) s = Ok (replace cpp rust s).
Proof.
  intros N R. unfold rust_name. set (s' := replace cpp rust s).
  assert (N' : ~ In 91 s') by (intros H; apply in_replace in H as [H|H]; auto).
  assert (E : replace (rust ++ bs "[]") (bs "Slice<" ++ rust ++ bs ">") s' = s').
  { apply replace_absent; [destruct rust; discriminate|]. intros a b E. apply N'. apply (split_no 91 _ _ _ _ E). apply in_app_iff. right. now left. }
  rewrite E, find_absent; [reflexivity|]. intros a b E'. apply N'. apply (split_no 91 _ _ _ _ E'). apply in_app_iff. right. now left.
Qed.
Definition replaces (l : list (bytes * bytes)) (s : bytes) : bytes := fold_left (fun s cr => replace (fst cr) (snd cr) s) l s.
Lemma turns_plain l : Forall (fun cr => ~ In 91 (snd cr)) l -> forall s, ~ In 91 s -> rust_turns l s = Ok (replaces l s).
Proof.
  induction 1 as [|[cpp rust] l R _ IH]; intros s N; [reflexivity|]. cbn [rust_turns replaces fold_left fst snd] in *.
  rewrite turn_plain by assumption. cbn [rbind]. apply IH. intros H. apply in_replace in H as [H|H]; auto.
Qed.
Lemma replaces_sep c l : Forall (fun cr => fst cr <> [] /\ ~ In c (fst cr)) l -> forall a b, replaces l (a ++ c :: b) = replaces l a ++ c :: replaces l b.
Proof.
  induction 1 as [|cr l [NE N] _ IH]; intros a b; [reflexivity|]. cbn [replaces fold_left]. rewrite replace_sep by assumption. apply IH.
Qed.
Lemma replaces_app l m s : replaces (l ++ m) s = replaces m (replaces l s).
Proof. unfold replaces. now rewrite fold_left_app. Qed.
Lemma in_replaces c l : Forall (fun cr => ~ In c (snd cr)) l -> forall s, ~ In c s -> ~ In c (replaces l s).
Proof.
  induction 1 as [|cr l N _ IH]; intros s H; [exact H|]. cbn [replaces fold_left]. apply IH. intros X. apply in_replace in X as [X|X]; auto.
Qed.

Definition containers : list (bytes * bytes) :=
  [(bs "string", bs "String"); (bs "vector", bs "Vec"); (bs "map", bs "HashMap"); (bs "set", bs "HashSet")].
Definition all_names : list (bytes * bytes) := containers ++ rust_names ++ [(bs "char*", bs "String")].
Ltac chars := repeat constructor; vm_compute; intuition discriminate.
Lemma rust_plain ty : ascii ty = true -> ~ In 91 (clean_ascii ty) -> type_name_cpp_to_rust ty = Ok (replaces all_names (clean_ascii ty)).
Proof.
  intros A N. unfold type_name_cpp_to_rust, clean_type_name. rewrite A. cbn [rbind].
  assert (E : forall x, replace (bs "set") (bs "HashSet") (replace (bs "map") (bs "HashMap") (replace (bs "vector") (bs "Vec") (replace (bs "string") (bs "String") x))) = replaces containers x) by reflexivity.
  cbv zeta. rewrite E.
  rewrite turns_plain; [|chars|apply in_replaces; [chars|exact N]]. cbn [rbind]. 
  unfold all_names. rewrite (replaces_app containers (rust_names ++ _)), (replaces_app rust_names [_]). generalize (replaces rust_names (replaces containers (clean_ascii ty))).
  intros x. apply f_equal. cbn [replaces fold_left fst snd]. exact eq_refl.
Qed.
Lemma names_vector s : replaces all_names (bs "vector<" ++ s ++ bs ">") = bs "Vec<" ++ replaces all_names s ++ bs ">".
Proof.
  assert (E0 : forall x, bs "vector<" ++ x ++ bs ">" = bs "vector" ++ 60 :: (x ++ 62 :: [])) by reflexivity.
  assert (E1 : forall x, bs "Vec<" ++ x ++ bs ">" = bs "Vec" ++ 60 :: (x ++ 62 :: [])) by reflexivity. rewrite E0, E1.
  assert (F0 : Forall (fun cr : bytes * bytes => fst cr <> [] /\ ~ In 60 (fst cr)) all_names) by (repeat constructor; cbn [fst]; try discriminate; vm_compute; intuition discriminate).
  assert (F1 : Forall (fun cr : bytes * bytes => fst cr <> [] /\ ~ In 62 (fst cr)) all_names) by (repeat constructor; cbn [fst]; try discriminate; vm_compute; intuition discriminate).
  rewrite (replaces_sep 60) by exact F0. rewrite (replaces_sep 62) by exact F1.
  assert (E2 : replaces all_names (bs "vector") = bs "Vec") by (vm_compute; reflexivity). assert (E3 : replaces all_names [] = []) by (vm_compute; reflexivity).
  now rewrite E2, E3.
Qed.

(** *** Arrays *)

Definition rust_prim (p : prim) : bytes :=
  match p with
  | I8 => bs "i8" | U8 => bs "u8" | I16 => bs "i16" | U16 => bs "u16" | I32 => bs "i32" | U32 => bs "u32"
  | I64 => bs "i64" | U64 => bs "u64" | F32 => bs "f32" | F64 => bs "f64" | PBool => bs "bool"
  end.

Section Array.
Variable D : bytes.
Hypothesis digits : forallb is_digit D = true.
Hypothesis some_digit : D <> [].
Definition arr (a : bytes) : bytes := a ++ 91 :: (D ++ 93 :: []).

Lemma no_in c : is_digit c = false -> ~ In c D.
Proof using digits. intros N H. rewrite forallb_forall in digits. specialize (digits c H). congruence. Qed.
Lemma not_digit_tail c : is_digit c = false -> c <> 93 -> ~ In c (D ++ [93]).
Proof using digits. intros N N' H. apply in_app_iff in H as [H|[H|[]]]; [now apply (no_in c)|congruence]. Qed.

Lemma replace_arr x f to a : is_digit x = false -> x <> 93 -> ~ In 91 (x :: f) -> replace (x :: f) to (arr a) = arr (replace (x :: f) to a).
Proof using digits.
  intros N N' S. unfold arr. rewrite replace_sep by (discriminate || assumption). rewrite (replace_stays x f to (D ++ [93])); [reflexivity|now apply not_digit_tail].
Qed.
Lemma clean_arr a : clean_ascii (arr a) = arr (clean_ascii a).
Proof using digits.
  unfold arr. rewrite clean_sep by (try reflexivity; repeat constructor; vm_compute; intuition discriminate).
  assert (E : clean_ascii (D ++ [93]) = D ++ [93]); [|now rewrite E].
  assert (X : forall x f to, is_digit x = false -> x <> 93 -> replace (x :: f) to (D ++ [93]) = D ++ [93]) by (intros; apply replace_stays; now apply not_digit_tail).
  assert (Y : forall x f to, is_digit x = false -> x <> 93 -> replace_string (D ++ [93]) (x :: f) to = D ++ [93]) by (intros; apply word_stays; now apply not_digit_tail).
  unfold clean_ascii. generalize dependent (D ++ [93]). clear. intros s X Y.
  rewrite (X 117 (bs "nsigned int")) by (reflexivity || discriminate). rewrite (Y 105 (bs "nt")) by (reflexivity || discriminate).
  rewrite (X 117 (bs "int32_t32_t")) by (reflexivity || discriminate). rewrite (X 105 (bs "nt32_t32_t")) by (reflexivity || discriminate).
  rewrite (X 117 (bs "int32_t16_t")) by (reflexivity || discriminate). rewrite (X 117 (bs "int32_t8_t")) by (reflexivity || discriminate).
  rewrite (X 105 (bs "nt32_t16_t")) by (reflexivity || discriminate). rewrite (X 105 (bs "nt32_t8_t")) by (reflexivity || discriminate).
  rewrite (X 105 (bs "nt32_t64_t")) by (reflexivity || discriminate).
  rewrite (X 117 (bs "nsigned short")) by (reflexivity || discriminate). rewrite (X 115 (bs "hort")) by (reflexivity || discriminate).
  rewrite (X 117 (bs "nsigned long")) by (reflexivity || discriminate). rewrite (X 108 (bs "ong")) by (reflexivity || discriminate).
  apply (X 32 []); [reflexivity|discriminate].
Qed.

(** In [a[D]] the bracket is followed by a digit, *)
Lemma no_empty_brackets rust a x y : ~ In 91 a -> arr a <> x ++ (rust ++ bs "[]") ++ y.
Proof using digits some_digit.
  intros N E. unfold arr in E. replace (x ++ (rust ++ bs "[]") ++ y) with ((x ++ rust) ++ 91 :: (93 :: y)) in E
    by (rewrite <- !app_assoc; reflexivity).
  apply unique_char in E as [_ E]; [|exact N|apply not_digit_tail; [reflexivity|discriminate]].
  destruct D as [|d D']; [contradiction|]. cbn [app] in E. injection E as E _. subst d. cbn in digits. discriminate.
Qed.
(** and preceded by [a]. *)
Lemma no_other_name rust a x y : ~ In 91 a -> (forall z, a <> z ++ rust) -> arr a <> x ++ (rust ++ bs "[") ++ y.
Proof using digits.
  intros N NE E. unfold arr in E. replace (x ++ (rust ++ bs "[") ++ y) with ((x ++ rust) ++ 91 :: y) in E by (rewrite <- !app_assoc; reflexivity).
  apply unique_char in E as [E _]; [|exact N|apply not_digit_tail; [reflexivity|discriminate]]. now apply (NE x).
Qed.

Lemma turn_skip x f rust a : is_digit x = false -> x <> 93 -> ~ In 91 (x :: f) -> ~ In 91 (replace (x :: f) rust a) ->
  (forall z, replace (x :: f) rust a <> z ++ rust) -> rust_name (x :: f, rust) (arr a) = Ok (arr (replace (x :: f) rust a)).
Proof using digits some_digit.
  intros N1 N2 N3 N4 NE. unfold rust_name. rewrite replace_arr by assumption.
  rewrite replace_absent; [|destruct rust; discriminate|intros; now apply no_empty_brackets].
  rewrite find_absent; [reflexivity|]. intros; now apply no_other_name.
Qed.
Definition done (rust : bytes) : bytes := [] ++ 91 :: (rust ++ 59 :: (D ++ 93 :: [])).
Lemma turn_hit x f rust a : is_digit x = false -> x <> 93 -> ~ In 91 (x :: f) -> replace (x :: f) rust a = rust -> ~ In 91 rust ->
  rust_name (x :: f, rust) (arr a) = Ok (done rust).
Proof using digits some_digit.
  intros N1 N2 N3 E N4. unfold rust_name. rewrite replace_arr, E by assumption.
  rewrite replace_absent; [|destruct rust; discriminate|intros; now apply no_empty_brackets].
  replace (arr rust) with ((rust ++ bs "[") ++ D ++ bs "]") at 1 by (rewrite <- app_assoc; reflexivity). rewrite find_here.
  assert (T : match D ++ bs "]" with 93 :: _ => true | _ => false end = false).
  { destruct D as [|d D']; [contradiction|]. cbn [app]. cbn in digits. apply andb_prop in digits as [X _]. unfold is_digit in X.
    assert (ND : d <> 93) by (intros ->; discriminate X). clear - ND.
    destruct d as [|p|p]; try reflexivity. do 7 (try (destruct p as [p|p|]; try reflexivity)). now contradiction ND. }
  rewrite T.
  assert (T2 : find_sub (bs "]") (D ++ bs "]") = Some (D, [])) by (apply (find_char 93 D []), no_in; reflexivity). rewrite T2. apply f_equal.
  replace (arr rust) with (rust ++ bs "[" ++ D ++ bs "]") by reflexivity. rewrite replace_all; [reflexivity|]. destruct rust; discriminate.
Qed.
Lemma turn_done x f rust r : is_digit x = false -> x <> 93 -> x <> 59 -> ~ In 91 (x :: f) -> ~ In 59 (x :: f) -> replace (x :: f) rust r = r -> ~ In 91 r -> rust <> [] ->
  hd 0 rust <> 91 -> rust_name (x :: f, rust) (done r) = Ok (done r).
Proof using digits some_digit.
  intros N1 N2 N3 N4 N5 E N6 NE NH. unfold rust_name.
  assert (E1 : replace (x :: f) rust (done r) = done r).
  { unfold done. rewrite replace_sep by (discriminate || assumption). rewrite replace_sep by (discriminate || assumption). rewrite E.
    rewrite (replace_stays x f rust (D ++ [93])) by now apply not_digit_tail. reflexivity. }
  assert (U : ~ In 91 (r ++ 59 :: (D ++ [93]))).
  { intros H. apply in_app_iff in H as [H|[H|H]]; [auto|discriminate|]. revert H. now apply not_digit_tail. }
  assert (B : forall z a b, done r <> a ++ (rust ++ 91 :: z) ++ b).
  { intros z a b H. unfold done in H. replace (a ++ (rust ++ 91 :: z) ++ b) with ((a ++ rust) ++ 91 :: (z ++ b)) in H by (rewrite <- !app_assoc; reflexivity).
    apply unique_char in H as [H _]; [|intros []|exact U]. symmetry in H. apply app_eq_nil in H as [_ H]. contradiction. }
  rewrite E1, replace_absent; [|destruct rust; discriminate|intros; apply (B [93])]. rewrite find_absent; [reflexivity|]. intros; apply (B []).
Qed.

Lemma ends_no rust a : strip_prefix (rev rust) (rev a) = None -> forall z, a <> z ++ rust.
Proof using Type. intros E z ->. rewrite rev_app_distr, strip_same in E. discriminate. Qed.

End Array.

Ltac side := first [reflexivity | discriminate | (vm_compute; discriminate) | (vm_compute; intuition discriminate) | (apply ends_no; vm_compute; reflexivity) | (vm_compute; reflexivity)].
Ltac turn :=
  cbn [rust_turns];
  match goal with
  | |- context [rust_name (?c :: ?f, ?r) (arr ?D ?a)] => first
      [ rewrite (turn_hit D ltac:(assumption) ltac:(assumption) c f r a) by side
      | rewrite (turn_skip D ltac:(assumption) ltac:(assumption) c f r a) by side;
        let v := eval vm_compute in (replace (c :: f) r a) in
        let E := fresh in assert (E : replace (c :: f) r a = v) by (vm_compute; reflexivity); rewrite E; clear E ]
  | |- context [rust_name (?c :: ?f, ?r) (done ?D ?a)] =>
      rewrite (turn_done D ltac:(assumption) ltac:(assumption) c f r a) by side
  end; cbn [rbind].
Ltac turns := repeat turn; reflexivity.

Lemma rust_arr D p : forallb is_digit D = true -> D <> [] -> type_name_cpp_to_rust (arr D (prim_name p)) = Ok (done D (rust_prim p)).
Proof.
  intros digits some_digit.
  unfold type_name_cpp_to_rust, clean_type_name.
  assert (A : ascii (arr D (prim_name p)) = true).
  { unfold ascii, arr. rewrite forallb_app. cbn [forallb]. rewrite forallb_app. cbn [forallb]. rewrite !andb_true_iff. split; [now destruct p|]. split; [split; reflexivity|]. split; [|repeat split; reflexivity].
    rewrite forallb_forall in *. intros c Hc. specialize (digits c Hc). unfold is_digit in digits. apply andb_prop in digits as [X Y]. apply Z.leb_le in X, Y.
    apply andb_true_intro. split; [apply Z.leb_le|apply Z.ltb_lt]; lia. }
  rewrite A, (clean_arr D digits). clear A. cbn [rbind].
  assert (C : clean_ascii (prim_name p) = prim_name p) by (destruct p; vm_compute; reflexivity). rewrite C. clear C. cbv zeta.
  rewrite (replace_arr D digits 115 (bs "tring")) by (reflexivity || discriminate || (vm_compute; intuition discriminate)).
  rewrite (replace_arr D digits 118 (bs "ector")) by (reflexivity || discriminate || (vm_compute; intuition discriminate)).
  rewrite (replace_arr D digits 109 (bs "ap")) by (reflexivity || discriminate || (vm_compute; intuition discriminate)).
  rewrite (replace_arr D digits 115 (bs "et")) by (reflexivity || discriminate || (vm_compute; intuition discriminate)).
  set (a := replace _ _ _). assert (EA : a = prim_name p) by (destruct p; vm_compute; reflexivity). clearbody a. subst a.
  assert (TR : rust_turns rust_names (arr D (prim_name p)) = Ok (done D (rust_prim p))).
  { let l := eval vm_compute in rust_names in change rust_names with l. destruct p; turns. }
  rewrite TR. cbn [rbind]. f_equal.
  apply replace_absent; [discriminate|]. intros x y E.
  assert (I : In 42 (done D (rust_prim p))) by (apply (split_no 42 _ _ _ _ E); vm_compute; intuition).
  revert I. unfold done. intros I. apply in_app_iff in I as [[]|[I|I]]; [discriminate|]. apply in_app_iff in I as [I|[I|I]]; [|discriminate|].
  - destruct p; vm_compute in I; intuition discriminate.
  - revert I. apply (not_digit_tail D digits); [reflexivity|discriminate].
Qed.
