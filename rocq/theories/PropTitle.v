(** C57: which column names hide the type of a column. *)
From Verif Require Import Base Bytes Values Names Key Obj TreeObj File Column ColRead ColType TreeWrite TreeSession StreamerDb Spec CodecFacts SpecTree SessFacts FileFacts DeriveWrite SpecTitle
  SpecRoom PropTree PropRoom Sample.
From Verif Require Import SpecTree.

(** *** The two regular expressions *)
Lemma span_spec p s : let '(a, b) := span p s in s = a ++ b /\ forallb p a = true /\ match b with [] => True | c :: _ => p c = false end.
Proof.
  induction s as [|c s IH]; cbn [span]; [auto|]. destruct (p c) eqn:E; [|auto]. destruct (span p s) as [a b]. destruct IH as (-> & F & H).
  split; [reflexivity|]. split; [cbn [forallb]; now rewrite E, F|exact H].
Qed.
Lemma bracket_free s : forallb (fun c => negb (is_bracket c)) s = true <-> no_bracket s.
Proof.
  split; [|intros H; exact (no_bracket_ok s H)]. intros H. rewrite forallb_forall in H. split; intros I; specialize (H _ I); discriminate H.
Qed.
Lemma has_dims_spec s : has_dims s = true <-> shows_dim s.
Proof.
  unfold has_dims. split.
  - intros H. pose proof (span_spec (fun c => negb (is_bracket c)) s) as S. destruct (span _ s) as [a r]. cbn [snd] in H. destruct S as (-> & A & _).
    destruct r as [|x r]; [discriminate|]. assert (x = 91) as -> by (destruct x as [|x|x]; try discriminate; do 7 (destruct x; try discriminate); reflexivity).
    pose proof (span_spec (fun c => negb (is_bracket c)) r) as S. destruct (span _ r) as [b c]. destruct S as (-> & B & _).
    destruct b as [|y b]; [discriminate|]. destruct c as [|z c]; [discriminate|].
    assert (z = 93) as -> by (destruct z as [|z|z]; try discriminate; do 7 (destruct z; try discriminate); reflexivity).
    exists a, (y :: b), c. split; [reflexivity|]. split; [now apply bracket_free|]. split; [now apply bracket_free|discriminate].
  - intros (a & b & c & -> & A & B & N). change (bs "[") with [91]. change (bs "]") with [93].
    rewrite (span_all _ a ([91] ++ b ++ [93] ++ c) (proj2 (bracket_free a) A) eq_refl). cbn [snd app].
    rewrite (span_all _ b (93 :: c) (proj2 (bracket_free b) B) eq_refl). destruct b; [congruence|reflexivity].
Qed.

Lemma digits_spec d : forallb is_digit d = true <-> Forall (fun c => 48 <= c <= 57) d.
Proof. rewrite forallb_forall, Forall_forall. unfold is_digit. split; intros H x I; specialize (H x I); lia. Qed.
Lemma number_at_head c r d ds z : span is_digit r = (d :: ds, 93 :: z) -> d <> 48 -> c = 91 -> number_in (c :: r) [] (d :: ds) z.
Proof.
  intros S N ->. pose proof (span_spec is_digit r) as X. rewrite S in X. destruct X as (-> & D & _). split; [reflexivity|].
  split; [discriminate|]. split; [now apply digits_spec|exact N].
Qed.
Lemma head_number s d z : number_in s [] d z -> exists r x ds, s = 91 :: r /\ d = x :: ds /\ span is_digit r = (x :: ds, 93 :: z) /\ x <> 48.
Proof.
  intros (-> & N & D & H). destruct d as [|x ds]; [congruence|]. exists ((x :: ds) ++ 93 :: z), x, ds. split; [reflexivity|]. split; [reflexivity|].
  split; [|exact H]. apply span_all; [now apply digits_spec|reflexivity].
Qed.
Lemma number_cons c s a d z : number_in (c :: s) a d z -> (a = [] /\ number_in (c :: s) [] d z) \/ exists a', a = c :: a' /\ number_in s a' d z.
Proof.
  intros (E & N). destruct a as [|x a]; [left; split; [reflexivity|now split]|]. right. injection E as -> E. exists a. split; [reflexivity|]. now split.
Qed.
Lemma number_later c s a d z : number_in s a d z -> number_in (c :: s) (c :: a) d z.
Proof. intros (-> & N). now split. Qed.

Lemma item_dim_spec s : match item_dim s with
  | Some d => first_number s d
  | None => forall a d c, ~ number_in s a d c
  end.
Proof.
  induction s as [|c s IH]; cbn [item_dim].
  - intros a d c (E & _). destruct a; discriminate E.
  - assert (L : (forall d z, ~ number_in (c :: s) [] d z) -> match item_dim s with
        | Some d => first_number (c :: s) d | None => forall a d z, ~ number_in (c :: s) a d z end).
    { intros H. destruct (item_dim s) as [d|].
      - destruct IH as (a & z & N & M). exists (c :: a), z. split; [now apply number_later|]. intros a' d' z' N'. apply number_cons in N' as [(-> & N')|(b & -> & N')].
        + now apply H in N'.
        + specialize (M _ _ _ N'). cbn [length]. lia.
      - intros a d z N. apply number_cons in N as [(-> & N)|(b & -> & N)]; [now apply H in N|now apply IH in N]. }
    destruct (Z.eqb_spec c 91) as [->|NC].
    + destruct (span is_digit s) as [ds z] eqn:S.
      assert (Hn : (forall d ds' z', ds = d :: ds' -> z = 93 :: z' -> d = 48) -> forall d z', ~ number_in (91 :: s) [] d z').
      { intros H d z' N. apply head_number in N as (r & x & ds' & E & -> & S' & X). injection E as <-. rewrite S in S'. injection S' as -> ->. apply X. now apply (H x ds' z'). }
      destruct ds as [|d ds]; [apply L, Hn; intros; discriminate|]. destruct z as [|y z]; [apply L, Hn; intros; discriminate|].
      destruct (Z.eq_dec y 93) as [->|Ny].
      * destruct (Z.eqb_spec d 48) as [->|Nd]; [apply L, Hn; intros ? ? ? E _; now injection E|].
        exists [], z. split; [now apply number_at_head|]. intros. cbn [length]. lia.
      * replace (match y with 93 => if d =? 48 then None else Some (d :: ds) | _ => None end) with (@None bytes)
          by (destruct y as [|y|y]; try reflexivity; do 7 (destruct y; try reflexivity); congruence).
        apply L, Hn. intros ? ? ? _ E. congruence.
    + apply L. intros d z N. apply head_number in N as (r & x & ds' & E & _). injection E as E _. now apply NC.
Qed.
Lemma same_front {A} (a : list A) : forall a' b b', a ++ b = a' ++ b' -> length a = length a' -> a = a'.
Proof. induction a as [|x a IH]; intros [|x' a'] b b' E L; try discriminate L; [reflexivity|]. injection E as -> E. injection L as L. f_equal. now apply (IH a' b b'). Qed.
Lemma number_same s a d c a' d' c' : number_in s a d c -> number_in s a' d' c' -> length a = length a' -> d = d'.
Proof.
  intros (E & N & D & _) (E' & N' & D' & _) L. rewrite E in E'. change (bs "[") with [91] in E'. change (bs "]") with [93] in E'.
  assert (a = a') by (eapply same_front; eassumption).
  subst a'. apply app_inv_head in E'. injection E' as E'. pose proof (span_all is_digit d (93 :: c) (proj2 (digits_spec d) D) eq_refl) as S1.
  pose proof (span_all is_digit d' (93 :: c') (proj2 (digits_spec d') D') eq_refl) as S2. cbn [app] in E'. rewrite E', S2 in S1. now injection S1.
Qed.
Lemma first_same s d d' : first_number s d -> first_number s d' -> d = d'.
Proof.
  intros (a & c & N & M) (a' & c' & N' & M'). apply (number_same _ _ _ _ _ _ _ N N'). specialize (M _ _ _ N'). specialize (M' _ _ _ N). lia.
Qed.
Lemma item_dim_iff s d : item_dim s = Some d <-> first_number s d.
Proof.
  pose proof (item_dim_spec s) as H. split; [intros E; now rewrite E in H|]. intros F. destruct (item_dim s) as [d'|].
  - f_equal. now apply (first_same s).
  - destruct F as (a & c & N & _). now apply H in N.
Qed.

Lemma undec_nonneg d : Forall (fun c => 48 <= c <= 57) d -> 0 <= undec d.
Proof.
  induction d as [|c d IH] using rev_ind; intros F; [unfold undec; cbn; lia|]. apply Forall_app in F as (F1 & F2). inversion F2; subst. rewrite undec_snoc. specialize (IH F1). lia.
Qed.
Lemma number_pos d : number d -> 0 < undec d.
Proof.
  intros (N & F & H). induction d as [|c d IH] using rev_ind; [congruence|]. apply Forall_app in F as (F1 & F2). inversion F2; subst. rewrite undec_snoc.
  destruct d as [|x d]; [cbn in H; unfold undec; cbn; lia|]. specialize (IH ltac:(discriminate) F1 H). lia.
Qed.
Lemma number_inj d : forall e, number d -> number e -> undec d = undec e -> d = e.
Proof.
  induction d as [|c d IH] using rev_ind; intros e (N & F & H) (N' & F' & H') E; [congruence|].
  destruct (exists_last N') as (e' & c' & ->). apply Forall_app in F as (F1 & F2). apply Forall_app in F' as (F1' & F2'). inversion F2; inversion F2'; subst.
  rewrite !undec_snoc in E. assert (c = c' /\ undec d = undec e') as (-> & U) by lia. f_equal.
  destruct d as [|x d], e' as [|x' e'].
  - reflexivity.
  - pose proof (number_pos (x' :: e') ltac:(split; [discriminate|split; [exact F1'|exact H']])) as P. rewrite <- U in P. unfold undec in P. cbn in P. lia.
  - pose proof (number_pos (x :: d) ltac:(split; [discriminate|split; [exact F1|exact H]])) as P. rewrite U in P. unfold undec in P. cbn in P. lia.
  - apply IH; [split; [discriminate|split; [exact F1|exact H]]|split; [discriminate|split; [exact F1'|exact H']]|exact U].
Qed.
Lemma decimal_number n d : (0 < n)%nat -> decimal n d -> number d /\ undec d = Z.of_nat n.
Proof. intros P (A & B & C & D). split; [split; [exact A|split; [exact B|now apply D]]|exact C]. Qed.
Lemma decimal_unique n d : (0 < n)%nat -> decimal n d -> d = dec (Z.of_nat n).
Proof.
  intros P H. destruct (decimal_number n d P H) as (N & V). destruct (decimal_number n _ P (dec_decimal n)) as (N' & V'). apply number_inj; [exact N|exact N'|congruence].
Qed.

(** *** The type in the title *)
Lemma title_dim_cases s :
  (too_large s /\ title_dim s = Panic) \/
  (~ too_large s /\ ((~ shows_dim s /\ title_dim s = Ok None) \/
     (shows_dim s /\ (forall d, ~ first_number s d) /\ title_dim s = Ok (Some 0)) \/
     exists d, shows_dim s /\ first_number s d /\ 0 < value d < 2 ^ 31 /\ title_dim s = Ok (Some (value d)))).
Proof.
  unfold title_dim. destruct (has_dims s) eqn:H.
  - apply has_dims_spec in H. pose proof (item_dim_spec s) as I. destruct (item_dim s) as [d|].
    + assert (P : 0 < value d) by (destruct I as (a & c & (_ & N) & _); exact (number_pos d N)). change (undec d) with (value d).
      destruct (Z.ltb_spec (value d) 2147483648) as [L|L].
      * right. split; [|right; right; exists d; auto]. intros (_ & d' & F & L'). rewrite (first_same _ _ _ F I) in L'. lia.
      * left. split; [|reflexivity]. split; [exact H|]. exists d. split; [exact I|exact L].
    + right. assert (NF : forall d, ~ first_number s d) by (intros d (a & c & N & _); now apply I in N).
      split; [|right; left; auto]. intros (_ & d & F & _). now apply NF in F.
  - right. assert (NS : ~ shows_dim s) by (intros X; apply has_dims_spec in X; congruence). split; [intros (X & _); now apply NS|left; auto].
Qed.

Lemma no_empty_dim b u : ~ In (b ++ bs "[]") (r_classes u).
Proof.
  intros I. pose proof (class_last _ _ I) as L. assert (E : last_byte (b ++ bs "[]") = 93) by (change (bs "[]") with ([91] ++ [93]); rewrite app_assoc; apply last_snoc).
  rewrite E in L. destruct u as [p| |u|n u]; cbv beta iota in L; [destruct L; congruence|destruct L; congruence|discriminate L|].
  cbn [r_classes] in I. apply in_map_iff in I as (x & X & _). destruct (dec_ok (Z.of_nat n) ltac:(lia)) as (_ & F & d & r & D & _).
  apply (f_equal (@rev Z)) in X. rewrite !rev_app_distr in X. change (rev (bs "]")) with [93] in X. change (rev (bs "[]")) with [93; 91] in X.
  change (rev (bs "[")) with [91] in X. rewrite <- app_assoc in X. cbn [app] in X. injection X as X.
  assert (RF : forallb is_digit (rev (dec (Z.of_nat n))) = true) by (rewrite forallb_forall in F |- *; intros y Y; apply F; now apply in_rev).
  assert (RN : rev (dec (Z.of_nat n)) <> []) by (rewrite D; cbn [rev]; destruct (rev r); discriminate).
  destruct (rev (dec (Z.of_nat n))) as [|y l]; [congruence|]. cbn [app] in X. injection X as -> _. cbn [forallb] in RF. discriminate RF.
Qed.
Lemma base_shown e nm dim u : In nm (r_classes e) -> (forall k, dim = Some k -> 0 <= k) ->
  (In (with_dim nm dim) (r_classes u) <-> match dim with None => u = e | Some k => 0 < k /\ u = TArr (Z.to_nat k) e end).
Proof.
  intros I P. destruct dim as [k|]; cbn [with_dim].
  - specialize (P k eq_refl). destruct (Z.ltb_spec 0 k) as [L|L].
    + assert (J : In (nm ++ bs "[" ++ dec k ++ bs "]") (r_classes (TArr (Z.to_nat k) e))).
      { cbn [r_classes]. rewrite Z2Nat.id by lia. exact (in_map (fun c => c ++ bs "[" ++ dec k ++ bs "]") _ _ I). }
      split; [|intros (_ & ->); exact J]. intros X. split; [exact L|]. exact (classes_disjoint _ _ _ X J).
    + split; [intros X; now apply no_empty_dim in X|lia].
  - split; [intros X; exact (classes_disjoint _ _ _ X I)|now intros ->].
Qed.

Lemma title_unique c s s' : column_type (c_type c) -> titled c s -> titled c s' -> s = s'.
Proof.
  intros C A B. destruct A as [nm n t vs d D|nm t vs H]; inversion B as [? ? ? ? d' D'|? ? ? H']; subst; try reflexivity.
  - cbn [c_type column_type] in C. destruct t; try contradiction. rewrite (decimal_unique n d), (decimal_unique n d'); auto; lia.
  - exfalso. now apply (H' n t).
  - exfalso. now apply (H n t0).
Qed.
Lemma has_title c : exists s, titled c s.
Proof.
  destruct c as [nm t vs]. destruct t as [p| |t|n t]; try (eexists; apply titled_other; intros ? ? ?; discriminate).
  eexists. apply titled_arr, dec_decimal.
Qed.

Lemma shown_not_large c s u : column_type (c_type c) -> titled c s -> shown c u -> ~ too_large s.
Proof.
  intros C T [t s' _ T' N|s' _ T' N|s' d _ T' D N L]; rewrite (title_unique _ _ _ C T T'); [exact N|intros (D & _); now apply N|].
  intros (_ & d' & F & L'). rewrite (first_same _ _ _ F N) in L'. lia.
Qed.

(** What the reader works out, in terms of the title. *)
Lemma named_shown c s : column_type (c_type c) -> titled c s ->
  (too_large s -> named_type (c_name c) (c_type c) = Panic) /\
  (~ too_large s -> exists n, named_type (c_name c) (c_type c) = Ok n /\ forall u, In n (r_classes u) <-> shown c u).
Proof.
  intros C T.
  assert (V : forall e nm, In nm (r_classes e) -> (forall t, c_type c <> TVec t) -> element (c_type c) = e ->
     (too_large s -> (dim <-? title_dim s ;; Ok (with_dim nm dim)) = Panic) /\
     (~ too_large s -> exists n, (dim <-? title_dim s ;; Ok (with_dim nm dim)) = Ok n /\ forall u, In n (r_classes u) <-> shown c u)).
  { intros e nm I NV EL. destruct (title_dim_cases s) as [(TL & ->)|(TL & H)]; [split; [reflexivity|congruence]|]. split; [intros X; now apply TL in X|]. intros _.
    assert (SH : forall u, shown c u <-> (~ shows_dim s /\ u = e) \/ exists d, shows_dim s /\ first_number s d /\ value d < 2 ^ 31 /\ u = TArr (Z.to_nat (value d)) e).
    { intros u. split.
      - intros [t title X|title _ T' D|title d _ T' D F L]; [now apply NV in X| |]; rewrite (title_unique _ _ _ C T T') in *; [left|right; exists d]; rewrite EL; auto.
      - intros [(D & ->)|(d & D & F & L & ->)]; rewrite <- EL; [now apply shown_one with s|now apply shown_arr with s]. }
    destruct H as [(D & ->)|[(D & F & ->)|(d & D & F & L & ->)]]; eexists; (split; [reflexivity|]); intros u; rewrite SH, (base_shown e nm _ u I).
    - split; [auto|intros [(_ & ->)|(d & D' & _)]; [reflexivity|now apply D in D']].
    - intros k E. discriminate E.
    - split; [lia|intros [(D' & _)|(d & _ & F' & _)]; [now apply D' in D|now apply F in F']].
    - intros k E. injection E as <-. lia.
    - split; [intros (_ & ->); right; exists d; repeat split; auto; lia|]. intros [(D' & _)|(d' & _ & F' & _ & ->)]; [now apply D' in D|].
      rewrite (first_same _ _ _ F' F). split; [lia|reflexivity].
    - intros k E. injection E as <-. lia. }
  destruct c as [nm t vs]. cbn [c_type c_name] in *. destruct t as [p| |t|n t]; cbn [named_type].
  - inversion T; subst. apply (V (TPrim p)); [now left|intros ? X; discriminate X|reflexivity].
  - inversion T; subst. apply (V TString); [right; now left|intros ? X; discriminate X|reflexivity].
  - destruct t as [p| | |]; cbn [column_type] in C; try contradiction. inversion T as [|? ? ? _]; subst.
    destruct (title_dim_cases s) as [(TL & ->)|(TL & H)]; [split; [reflexivity|congruence]|]. split; [intros X; now apply TL in X|]. intros _.
    exists (bs "vector<" ++ prim_name p ++ bs ">"). split; [destruct H as [(_ & ->)|[(_ & _ & ->)|(? & _ & _ & _ & ->)]]; reflexivity|].
    assert (J : In (bs "vector<" ++ prim_name p ++ bs ">") (r_classes (TVec (TPrim p)))) by now left.
    intros u. split.
    + intros X. rewrite (classes_disjoint _ _ _ X J). apply shown_vec with s; [reflexivity|exact T|exact TL].
    + intros [t' title X _ _|title X|title d X]; [|exfalso; now apply (X (TPrim p))..]. cbn [c_type] in X. injection X as <-. exact J.
  - destruct t as [p| | |]; cbn [column_type] in C; try contradiction. inversion T as [? ? ? ? d D|? ? ? H]; subst; [|exfalso; now apply (H n (TPrim p))].
    rewrite <- (decimal_unique n d) by (auto; lia). apply (V (TPrim p)); [now left|intros ? X; discriminate X|reflexivity].
Qed.

(** *** Reading a branch without sub-branches gives no errors but panics *)
Definition calm {A} (r : res A) : Prop := forall e, r <> Err e.
Lemma calm_ok {A} (a : A) : calm (Ok a). Proof. intros e X. discriminate X. Qed.
Lemma calm_panic {A} : calm (@Panic A). Proof. intros e X. discriminate X. Qed.
Lemma calm_unwrap {A} (r : res A) : calm (unwrap r). Proof. destruct r; intros ? X; discriminate X. Qed.
Lemma calm_bind {A B} (m : res A) (k : A -> res B) : calm m -> (forall a, calm (k a)) -> calm (rbind m k).
Proof. intros M K. destruct m as [a|x| | |]; cbn [rbind]; [apply K|exfalso; now apply (M x)|intros ? X; discriminate X..]. Qed.
Lemma calm_map {A B} (g : A -> res B) l : (forall a, calm (g a)) -> calm (res_map g l).
Proof. intros G. induction l as [|a l IH]; cbn [res_map]; [apply calm_ok|]. apply calm_bind; [apply G|]. intros b. apply calm_bind; [exact IH|]. intros. apply calm_ok. Qed.
Ltac calm := repeat match goal with
  | |- calm (Ok _) => apply calm_ok
  | |- calm Panic => apply calm_panic
  | |- calm (unwrap _) => apply calm_unwrap
  | |- calm (res_map _ _) => apply calm_map; intros
  | |- calm (rbind _ _) => apply calm_bind; [|intros]
  | |- calm (if ?b then _ else _) => destruct b
  | |- calm (match ?x with _ => _ end) => destruct x
  end.
Lemma calm_sub a b : calm (sub_i32 a b). Proof. unfold sub_i32, add_i32. calm. Qed.
Lemma calm_chunks n : forall b, calm (chunks4 n b).
Proof. induction n as [|n IH]; intros b; cbn [chunks4]; [intros e X; discriminate X|]. calm. apply IH. Qed.
Lemma calm_slices buf offs : calm (slices buf offs).
Proof. induction offs as [|a [|b r] IH]; cbn [slices]; [calm..|]. apply calm_bind; [unfold slice; calm|]. intros. apply calm_bind; [exact IH|]. intros. apply calm_ok. Qed.
Lemma calm_raw d b : calm (raw_data d b).
Proof. unfold raw_data. calm; first [apply calm_sub|apply calm_chunks]. Qed.
Lemma calm_hb a s c : calm (header_bytes_from_type a s c).
Proof.
  assert (T : calm (parse_typename c)) by (unfold parse_typename; calm; intros ? X; discriminate X).
  assert (R : calm (if a =? -1 then parse_typename c else if a <? 61 then (if 40 <? a then Ok 1 else Ok 0) else if a =? 65 then Ok 0 else if a =? 300 then Ok 6 else Panic)).
  { destruct (a =? -1); [exact T|]. destruct (a <? 61); [destruct (40 <? a); apply calm_ok|]. destruct (a =? 65); [apply calm_ok|]. destruct (a =? 300); [apply calm_ok|apply calm_panic]. }
  unfold header_bytes_from_type. destruct s as [[]|]; cbv zeta; try exact R; try apply calm_ok. destruct (e_etype e =? 65); [apply calm_ok|]. destruct (e_etype e =? 56); [apply calm_panic|exact R].
Qed.
Lemma calm_chunk d sis b seek len size l : calm (basket_chunk d sis b seek len size l).
Proof. unfold basket_chunk, div_usize. calm; first [apply calm_sub|apply calm_chunks|apply calm_raw|apply calm_hb|apply calm_slices]. Qed.
Lemma calm_buffer d sis b : calm (baskets_buffer d sis b).
Proof. unfold baskets_buffer, sizes_for, leaves_for, embedded_chunk. calm; first [apply calm_hb|apply calm_slices|apply calm_sub|apply calm_chunks|apply calm_chunk]. Qed.
Lemma calm_basket {A} d sis (g : R A) b : br_subs b = [] -> calm (get_basket d sis g b).
Proof. intros E. unfold get_basket. rewrite E. calm; [apply calm_buffer|unfold read_chunk; calm]. Qed.

(** *** C57 *)
Lemma table_typed path ts es f t : finished path ts es f -> short_path path -> visible ts t ->
  exists fo r, open_file (f_disk f) = Ok fo /\ get_tree fo (tb_name t) = Ok r /\
    Forall2 (fun c b => br_subs b = [] /\ item_type_name (f_sinfos fo) b = named_type (c_name c) (c_type c) /\
        get_basket (f_disk fo) (f_sinfos fo) (unmarshal (c_type c)) b = res_map (eread (c_type c)) (c_values c) /\
        Forall (fun v => wt (c_type c) v /\ zlen (ent (c_type c) v) < 2 ^ 31) (c_values c))
      (columns (tb_setup t)) (t_branches r).
Proof.
  intros (P & W & N & S & D) SP (a & b & E & L & NS).
  destruct (user_path_ok _ P) as [P' SP']. apply SP' in SP.
  destruct (session_back real_db path (map calls ts) f es real_db_ok P' SP) as (fo & O & _ & _ & G & _).
  { apply Forall_map. eapply Forall_impl; [|exact W]. intros x. apply table_tprog. }
  { rewrite map_map. exact N. }
  { exact S. }
  { exact D. }
  assert (LT : latest (map calls ts) (tp_name (calls t)) = Some (calls t)).
  { unfold latest. rewrite E, map_app. cbn [map]. rewrite rev_app_distr. cbn [rev]. rewrite <- !app_assoc. apply find_after.
    - apply beqb_eq. reflexivity.
    - intros x Hx. apply in_rev, in_map_iff in Hx as (t' & <- & I). cbn [calls tp_name]. apply Bool.not_true_is_false. intros B. apply beqb_eq in B.
      now apply (L t'). }
  destruct (G _ LT (not_in_existsb _ _ NS)) as (r & R & _ & m & PA & _ & F). exists fo, r. split; [exact O|]. split; [exact R|].
  rewrite cols_of_calls in PA, F. apply passes_longest in PA. subst m. apply Forall2_map_l in F.
  eapply Forall2_in; [|exact F]. intros c x I (_ & B2 & _ & _ & BB & _ & (BT & BG) & _). cbn [cs_name cs_ty cs_it] in *.
  replace (taken (Datatypes.S (longest (columns (tb_setup t)))) (map Some (c_values c))) with (c_values c) in *.
  - rewrite (open_disk _ _ O). split; [|auto]. destruct x as [? ? ? subs ? ?]. cbn [branches_r] in B2. cbn [br_subs]. destruct subs; [reflexivity|discriminate B2].
  - rewrite taken_plain. symmetry. apply firstn_all2. pose proof (longest_ge _ _ I). lia.
Qed.

Theorem C57_names_decide_the_type path ts es f t : finished path ts es f -> short_path path -> visible ts t ->
  exists fo r, open_file (f_disk f) = Ok fo /\ get_tree fo (tb_name t) = Ok r /\
    Forall2 (fun c b => exists title, titled c title /\
        (too_large title -> forall u, values_of fo u b = Panic) /\
        (~ too_large title -> forall u, values_of fo u b = Err ETypeMismatch <-> ~ shown c u) /\
        (values_of fo (c_type c) b = Ok (c_values c) <-> shown c (c_type c) /\ Forall (vector_fits (c_type c)) (c_values c)))
      (columns (tb_setup t)) (t_branches r).
Proof.
  intros F S V. destruct (table_typed _ _ _ _ _ F S V) as (fo & r & O & G & T). exists fo, r. split; [exact O|]. split; [exact G|].
  assert (W : table_ok t). { destruct F as (_ & W & _). destruct V as (a & b & E & _). rewrite Forall_forall in W. apply W. rewrite E. apply in_or_app. right. now left. }
  destruct W as (_ & _ & W). rewrite Forall_forall in W.
  eapply Forall2_in; [|exact T]. intros c b I (B1 & B2 & B3 & B4). specialize (W c I) as (C & _ & _).
  destruct (has_title c) as (s & TS). exists s. split; [exact TS|]. destruct (named_shown c s C TS) as (NP & NS).
  assert (HT : Forall (has_type (c_type c)) (c_values c)) by (eapply Forall_impl; [|exact B4]; intros v [Hv _]; now apply wt_has_type).
  unfold values_of, as_iter. rewrite B2. split; [|split].
  - intros TL u. now rewrite (NP TL).
  - intros TL u. destruct (NS TL) as (n & -> & SH). cbn [rbind]. rewrite <- SH. destruct (existsb (beqb n) (r_classes u)) eqn:X.
    + apply existsb_exists in X as (y & Y & E). apply beqb_eq in E. subst y. split; [|now intros X]. intros E. now apply (calm_basket _ _ _ _ B1) in E.
    + split; [intros _ Y|reflexivity]. assert (existsb (beqb n) (r_classes u) = true); [|congruence]. apply existsb_exists. exists n. split; [exact Y|apply beqb_refl].
  - destruct (title_dim_cases s) as [(TL & _)|(TL & _)].
    + rewrite (NP TL). cbn [rbind]. split; [intros X; discriminate X|]. intros (SH & _). exfalso.
      exact (shown_not_large c s _ C TS SH TL).
    + destruct (NS TL) as (n & -> & SH). cbn [rbind]. rewrite <- SH. destruct (existsb (beqb n) (r_classes (c_type c))) eqn:X.
      * apply existsb_exists in X as (y & Y & E). apply beqb_eq in E. subst y. rewrite B3, (ereads _ _ C HT B4). tauto.
      * split; [intros Y; discriminate Y|]. intros (Y & _). exfalso. assert (existsb (beqb n) (r_classes (c_type c)) = true); [|congruence].
        apply existsb_exists. exists n. split; [exact Y|apply beqb_refl].
Qed.

(** Without brackets the name does not matter. *)
Lemma plain_title name d : no_bracket name -> number d -> shows_dim (name ++ bs "[" ++ d ++ bs "]") /\ first_number (name ++ bs "[" ++ d ++ bs "]") d.
Proof.
  intros NB N. pose proof N as (N0 & ND & _).
  assert (DB : no_bracket d) by (rewrite Forall_forall in ND; split; intros X; specialize (ND _ X); lia). split.
  - exists name, d, []. rewrite app_nil_r. auto.
  - exists name, []. split; [split; [now rewrite app_nil_r|exact N]|]. intros a' d' c' (E & _).
    destruct (Nat.le_gt_cases (length name) (length a')) as [L|L]; [exact L|]. exfalso.
    apply (f_equal (fun l => nth (length a') l 0)) in E. rewrite (app_nth1 name) in E by lia. rewrite app_nth2 in E by lia. rewrite Nat.sub_diag in E. cbn in E.
    apply (proj1 NB). rewrite <- E. apply nth_In. lia.
Qed.
Theorem C57_plain_names c u : column_type (c_type c) -> no_bracket (c_name c) -> (shown c u <-> u = c_type c).
Proof.
  intros C NB.
  assert (ND : ~ shows_dim (c_name c)). { intros (a & b & x & E & _). apply (proj1 NB). rewrite E. apply in_or_app. right. now left. }
  assert (ST : forall s, titled c s -> (forall n t, c_type c <> TArr n t) -> s = c_name c).
  { intros s T H. destruct T as [nm n t vs d D|]; [exfalso; now apply (H n t)|reflexivity]. }
  destruct c as [nm t vs]. cbn [c_type c_name] in *. destruct t as [p| |t|n t].
  - split; [intros [t s X|s _ T D|s d _ T D]|intros ->]; [discriminate X|reflexivity|rewrite (ST s T) in D by discriminate; now apply ND in D|].
    apply (shown_one (Column nm (TPrim p) vs) nm); [discriminate|now apply titled_other|exact ND].
  - split; [intros [t s X|s _ T D|s d _ T D]|intros ->]; [discriminate X|reflexivity|rewrite (ST s T) in D by discriminate; now apply ND in D|].
    apply (shown_one (Column nm TString vs) nm); [discriminate|now apply titled_other|exact ND].
  - split; [intros [t' s X|s X|s d X]; [now rewrite <- X|exfalso; now apply (X t)..]|intros ->].
    apply (shown_vec _ t nm); [reflexivity|now apply titled_other|]. intros (D & _). now apply ND in D.
  - cbn [column_type] in C. destruct t as [p| | |]; try contradiction.
    assert (K : forall d, decimal n d -> shows_dim (nm ++ bs "[" ++ d ++ bs "]") /\ first_number (nm ++ bs "[" ++ d ++ bs "]") d /\ value d = Z.of_nat n).
    { intros d D. destruct (decimal_number n d ltac:(lia) D) as (N & V). destruct (plain_title nm d NB N). auto. }
    split.
    + intros [t s X|s _ T D|s d _ T D F L]; [discriminate X| |].
      * exfalso. inversion T as [? ? ? ? d DD|? ? ? H]; subst; [now apply D, (K d)|now apply (H n (TPrim p))].
      * inversion T as [? ? ? ? d' DD|? ? ? H]; subst; [|exfalso; now apply (H n (TPrim p))]. destruct (K d' DD) as (_ & F' & V). rewrite (first_same _ _ _ F F'), V, Nat2Z.id. reflexivity.
    + intros ->. destruct (K _ (dec_decimal n)) as (D & F & V).
      pose proof (shown_arr (Column nm (TArr n (TPrim p)) vs) (nm ++ bs "[" ++ dec (Z.of_nat n) ++ bs "]") (dec (Z.of_nat n))) as X. rewrite V, Nat2Z.id in X.
      apply X; [discriminate|apply titled_arr, dec_decimal|exact D|exact F|lia].
Qed.

(** A scalar or string column whose name has a pair of brackets with something in between,
    and no bracket before, cannot be read as what it is. *)
Theorem C57_brackets_hide_the_type c a b x : c_name c = a ++ bs "[" ++ b ++ bs "]" ++ x -> no_bracket a -> no_bracket b -> b <> [] ->
  (forall n t, c_type c <> TArr n t) -> (forall t, c_type c <> TVec t) -> ~ shown c (c_type c).
Proof.
  intros E A B N NA NV S.
  assert (D : shows_dim (c_name c)) by (exists a, b, x; auto).
  assert (ST : forall s, titled c s -> s = c_name c).
  { intros s T. destruct T as [nm n t vs d D'|]; [exfalso; now apply (NA n t)|reflexivity]. }
  inversion S as [t s X|s _ T D' X|s d _ T D' F L X]; [now apply (NV t)|rewrite (ST s T) in D'; now apply D'|].
  symmetry in X. now apply NA in X.
Qed.

(** *** A concrete file *)
Definition odd_table : table := Table (bs "t")
  [AddColumn (Column (bs "x[1]") (TPrim I32) [VInt 5; VInt 6]); AddColumn (Column (bs "m[i]") (TArr 2 (TPrim U8)) [VList [VInt 1; VInt 2]]);
   AddColumn (Column (bs "v[9]") (TVec (TPrim F64)) [VList [VInt 7]]); AddColumn (Column (bs "a]") (TArr 2 (TPrim U8)) [VList [VInt 1; VInt 2]]);
   AddColumn (Column (bs "s[2147483648]") TString [VStr (bs "q")])].
Lemma odd_written : exists es f, finished path0 [odd_table] es f.
Proof.
  destruct (C45_what_fits_is_written path0 [odd_table]) as (es & f & H & _); [split; sample| | |apply few_short; vm_compute; discriminate| |eauto].
  - unfold odd_table. sample.
  - constructor; [|constructor]. split; [vm_compute; intuition discriminate|]. unfold odd_table. cbn [columns tb_setup].
    repeat (apply Forall_cons; [split; [apply RoomFacts.steady_fits; first [exact I|right; left; vm_compute; discriminate]|vm_compute; discriminate]|]). constructor.
  - vm_compute. discriminate.
Qed.
Lemma odd_visible : visible [odd_table] odd_table.
Proof. exists [], []. split; [reflexivity|]. split; [intros t' []|vm_compute; intuition discriminate]. Qed.

Ltac unbracket := split; cbn; intuition discriminate.
Example odd_shown : ~ shown (Column (bs "x[1]") (TPrim I32) [VInt 5; VInt 6]) (TPrim I32) /\
  shown (Column (bs "x[1]") (TPrim I32) [VInt 5; VInt 6]) (TArr 1 (TPrim I32)) /\
  too_large (bs "s[2147483648]").
Proof.
  assert (F : forall s d, item_dim s = Some d -> first_number s d) by (intros s d; apply item_dim_iff).
  split; [|split].
  - apply (C57_brackets_hide_the_type (Column (bs "x[1]") (TPrim I32) [VInt 5; VInt 6]) (bs "x") (bs "1") []); [reflexivity|unbracket|unbracket|discriminate|discriminate|discriminate].
  - apply (shown_arr (Column (bs "x[1]") (TPrim I32) [VInt 5; VInt 6]) (bs "x[1]") (bs "1")); [discriminate|apply titled_other; discriminate| | |reflexivity].
    + exists (bs "x"), (bs "1"), []. split; [reflexivity|]. split; [unbracket|]. split; [unbracket|discriminate].
    + now apply F.
  - split.
    + exists (bs "s"), (bs "2147483648"), []. split; [reflexivity|]. split; [unbracket|]. split; [unbracket|discriminate].
    + exists (bs "2147483648"). split; [now apply F|]. vm_compute. discriminate.
Qed.
Theorem C57_any_name_reads_refuted : exists path ts es f t fo r c b,
  finished path ts es f /\ short_path path /\ visible ts t /\ open_file (f_disk f) = Ok fo /\ get_tree fo (tb_name t) = Ok r /\
  nth_error (columns (tb_setup t)) 0 = Some c /\ nth_error (t_branches r) 0 = Some b /\ c_type c = TPrim I32 /\
  values_of fo (TPrim I32) b = Err ETypeMismatch.
Proof.
  destruct odd_written as (es & f & F). assert (SP : short_path path0) by (vm_compute; discriminate).
  destruct (C57_names_decide_the_type _ _ _ _ _ F SP odd_visible) as (fo & r & O & G & T).
  destruct (t_branches r) as [|b bs'] eqn:B; cbn [odd_table columns tb_setup] in T; inversion T as [|? ? ? ? T1 _]; subst.
  exists path0, [odd_table], es, f, odd_table, fo, r, (Column (bs "x[1]") (TPrim I32) [VInt 5; VInt 6]), b.
  split; [exact F|]. split; [exact SP|]. split; [exact odd_visible|]. split; [exact O|]. split; [exact G|]. split; [reflexivity|]. split; [now rewrite B|]. split; [reflexivity|].
  destruct T1 as (title & T1 & _ & H & _). assert (title = bs "x[1]") as -> by (refine (title_unique (Column (bs "x[1]") (TPrim I32) [VInt 5; VInt 6]) _ _ I T1 _); apply titled_other; discriminate).
  apply H; [|exact (proj1 odd_shown)]. intros (_ & d & FN & L). assert (I1 : first_number (bs "x[1]") (bs "1")) by now apply item_dim_iff.
  rewrite (first_same _ _ _ FN I1) in L. vm_compute in L. now apply L.
Qed.
