(** Properties of type names. *)
From Verif Require Import Base Bytes Values Key Header Obj RObj TreeObj File Names Column ColRead ColType TreeWrite TreeSession StreamerDb
  Spec SpecTree SessFacts FileFacts TreeFacts PropTree Sample Interp NameFacts.

(** ** C32: cleaning *)

(** [s] inside [k] vectors *)
Fixpoint vectors (k : nat) (s : bytes) : bytes :=
  match k with O => s | S n => bs "vector<" ++ vectors n s ++ bs ">" end.
Lemma vectors_S k s : vectors (S k) s = bs "vector<" ++ vectors k s ++ bs ">".
Proof. reflexivity. Qed.
Lemma vectors_0 s : vectors 0 s = s.
Proof. reflexivity. Qed.
Fixpoint nested (k : nat) (t : ty) : ty := match k with O => t | S n => TVec (nested n t) end.

Lemma ascii_vectors k s : ascii (vectors k s) = ascii s.
Proof. induction k as [|k IH]; [reflexivity|]. cbn [vectors]. now rewrite ascii_vector. Qed.
Lemma clean_vectors k s : clean_ascii (vectors k s) = vectors k (clean_ascii s).
Proof. induction k as [|k IH]; [rewrite !vectors_0; reflexivity|]. rewrite !vectors_S, clean_vector, IH. reflexivity. Qed.

(** Cleaning goes inside vectors, at any depth and for any text. *)
Theorem C32_cleaning_goes_inside k s r : clean_type_name s = Ok r -> clean_type_name (vectors k s) = Ok (vectors k r).
Proof.
  unfold clean_type_name. rewrite ascii_vectors. destruct (ascii s); [|discriminate]. intros E. injection E as <-. now rewrite clean_vectors.
Qed.
(** So the name of a vector that is written, at any depth, is not changed by cleaning. *)
Theorem C32_written_names_are_clean k p : p <> PBool ->
  w_class (nested k (TPrim p)) = Some (vectors k (cpp_scalar p)) /\
  clean_type_name (vectors k (cpp_scalar p)) = Ok (vectors k (cpp_scalar p)).
Proof.
  intros N. split.
  - induction k as [|k IH]; [destruct p; (reflexivity || contradiction)|]. cbn [nested w_class]. now rewrite IH.
  - apply C32_cleaning_goes_inside. destruct p; vm_compute; reflexivity.
Qed.
(** The names ROOT uses for the same scalars are changed into these ones, inside any number of vectors. *)
Theorem C32_root_names k : forall root p, In (root, p)
    [(bs "int", I32); (bs "unsigned int", U32); (bs "short", I16); (bs "unsigned short", U16); (bs "long", I64); (bs "unsigned long", U64)] ->
  clean_type_name (vectors k root) = Ok (vectors k (cpp_scalar p)).
Proof.
  intros root p H. apply C32_cleaning_goes_inside. cbn [In] in H.
  repeat match goal with H : _ \/ _ |- _ => destruct H as [H|H] end; try contradiction H; injection H as <- <-; vm_compute; reflexivity.
Qed.
(** But not every name of an integer type: [long long] is cleaned into one that means nothing. *)
Theorem C32_long_long_refuted : clean_type_name (bs "long long") = Ok (bs "int64_tint64_t") /\
  clean_type_name (bs "unsigned char") = Ok (bs "unsignedchar").
Proof. split; vm_compute; reflexivity. Qed.
Example clean0 : clean_type_name (bs "vector<vector<unsigned short>>") = Ok (bs "vector<vector<uint16_t>>").
Proof. vm_compute. reflexivity. Qed.

(** ** C44: Rust names *)

(** The name of the type in Rust. *)
Definition rust_scalar (p : prim) : bytes :=
  match p with
  | I8 => bs "i8" | U8 => bs "u8" | I16 => bs "i16" | U16 => bs "u16" | I32 => bs "i32" | U32 => bs "u32"
  | I64 => bs "i64" | U64 => bs "u64" | F32 => bs "f32" | F64 => bs "f64" | PBool => bs "bool"
  end.
Fixpoint vecs (k : nat) (s : bytes) : bytes :=
  match k with O => s | S n => bs "Vec<" ++ vecs n s ++ bs ">" end.
Inductive rust_named : ty -> bytes -> Prop :=
| rust_prim_ p : rust_named (TPrim p) (rust_scalar p)
| rust_string : rust_named TString (bs "String")
| rust_vec p : rust_named (TVec (TPrim p)) (bs "Vec<" ++ rust_scalar p ++ bs ">")
| rust_array n p d : decimal n d -> rust_named (TArr n (TPrim p)) (bs "[" ++ rust_scalar p ++ bs ";" ++ d ++ bs "]").

Lemma vecs_S k s : vecs (S k) s = bs "Vec<" ++ vecs k s ++ bs ">".
Proof. reflexivity. Qed.
Lemma vecs_0 s : vecs 0 s = s.
Proof. reflexivity. Qed.
Lemma names_vectors k s : replaces all_names (vectors k s) = vecs k (replaces all_names s).
Proof. induction k as [|k IH]; [rewrite vectors_0, vecs_0; reflexivity|]. rewrite vectors_S, vecs_S, names_vector, IH. reflexivity. Qed.
Lemma in_vectors c k s : c <> 60 -> c <> 62 -> ~ In c (bs "vector") -> ~ In c s -> ~ In c (vectors k s).
Proof.
  intros N1 N2 N3 N. induction k as [|k IH]; [exact N|]. cbn [vectors]. intros H. change (bs "vector<") with (bs "vector" ++ [60]) in H.
  rewrite !in_app_iff in H. destruct H as [[H|[H|[]]]|[H|[H|[]]]]; auto.
Qed.

(** A vector of scalars, at any depth, is given its Rust name. *)
Theorem C44_vectors_at_any_depth k p : type_name_cpp_to_rust (vectors k (cpp_scalar p)) = Ok (vecs k (rust_scalar p)).
Proof.
  assert (C : clean_ascii (cpp_scalar p) = cpp_scalar p) by (destruct p; vm_compute; reflexivity).
  rewrite rust_plain; [|rewrite ascii_vectors; now destruct p|].
  - rewrite clean_vectors, C, names_vectors. assert (E : replaces all_names (cpp_scalar p) = rust_scalar p) by (destruct p; vm_compute; reflexivity). now rewrite E.
  - rewrite clean_vectors, C. apply in_vectors; try discriminate; [vm_compute; intuition discriminate|]. destruct p; vm_compute; intuition discriminate.
Qed.
Lemma rust_names_columns t n : cpp_named t n -> exists r, type_name_cpp_to_rust n = Ok r /\ rust_named t r.
Proof.
  intros H. destruct H as [p| |p|k p d D].
  - exists (rust_scalar p). split; [exact (C44_vectors_at_any_depth 0 p)|constructor].
  - exists (bs "String"). split; [vm_compute; reflexivity|constructor].
  - exists (bs "Vec<" ++ rust_scalar p ++ bs ">"). split; [exact (C44_vectors_at_any_depth 1 p)|constructor].
  - exists (bs "[" ++ rust_scalar p ++ bs ";" ++ d ++ bs "]"). split; [|now constructor]. destruct D as (NE & F & _).
    change (cpp_scalar p) with (prim_name p). change (rust_scalar p) with (rust_prim p). apply (rust_arr d p); [|exact NE].
    apply forallb_forall. intros c Hc. rewrite Forall_forall in F. specialize (F c Hc). unfold is_digit. apply andb_true_intro. split; apply Z.leb_le; lia.
Qed.

(** Reading a file back, every column says what type it has: its C++ name and its Rust name. *)
Theorem C44_columns_name_their_type path ts es f t : finished path ts es f -> short_path path -> visible ts t ->
  exists fo r, open_file (f_disk f) = Ok fo /\ get_tree fo (tb_name t) = Ok r /\
    Forall2 (fun c b => no_bracket (c_name c) ->
        (exists n, item_type_name (f_sinfos fo) b = Ok n /\ cpp_named (c_type c) n) /\
        (exists n, interpretation (f_sinfos fo) b = Ok n /\ rust_named (c_type c) n))
      (columns (tb_setup t)) (t_branches r).
Proof.
  intros H S (a & b & E & L & N). destruct (C13_file_gives_back_its_tables _ _ _ _ H S) as (fo & O & _ & G & _).
  destruct (G a t b E L N) as (r & R & _ & _ & F). exists fo, r. split; [exact O|]. split; [exact R|].
  eapply Forall2_in; [|exact F]. intros c x _ (_ & _ & _ & _ & _ & H2 & _) R1. destruct (H2 R1) as (n & E1 & E2). split; [eauto|].
  destruct (rust_names_columns _ _ E2) as (n' & E3 & E4). exists n'. split; [|exact E4]. unfold interpretation. rewrite E1. exact E3.
Qed.
Example rust0 : type_name_cpp_to_rust (bs "uint16_t[123]") = Ok (bs "[u16;123]") /\ rust_named (TArr 123 (TPrim U16)) (bs "[u16;123]") /\
  type_name_cpp_to_rust (bs "vector<vector<int>>") = Ok (bs "Vec<Vec<i32>>").
Proof.
  split; [vm_compute; reflexivity|split; [|vm_compute; reflexivity]]. apply (rust_array 123 U16 (bs "123")).
  split; [discriminate|split; [|split; [vm_compute; reflexivity|intros _; vm_compute; discriminate]]]. repeat constructor; vm_compute; discriminate.
Qed.
