(** Specification: programs that go on after an error. *)
From Verif Require Import Base File Column TreeSession StreamerDb SpecName SpecTree.

(** [tree.write(&mut file)] whose result is kept but not acted upon: after an error the
    program goes on, after a panic it does not. *)
Definition try_table (t : table) : FM (res (list (nat * event))) := fun f =>
  match write_one real_db (calls t) f with
  | (f', Ok es) => (f', Ok (Ok es))
  | (f', Err e) => (f', Ok (Err e))
  | (f', Panic) => (f', Panic)
  | (f', Unmodelled) => (f', Unmodelled)
  | (f', OutOfFuel) => (f', OutOfFuel)
  end.
Fixpoint try_tables (ts : list table) : FM (list (res (list (nat * event)))) :=
  match ts with
  | [] => fret []
  | t :: r => o <-! try_table t ;; os <-! try_tables r ;; fret (o :: os)
  end.
(** Create a file, try to write the tables, close it; the answers of [write] in order. *)
Definition attempt (path : bytes) (ts : list table) : file * res (list (res (list (nat * event)))) :=
  let '(f, r) := create path in (flift r ;;! os <-! try_tables ts ;; close real_db ;;! fret os) f.

Definition has_slash (t : table) : Prop := In 47 (tb_name t).
(** The tables whose names contain no slash. *)
Definition accepted (ts : list table) : list table :=
  filter (fun t => negb (existsb (Z.eqb 47) (tb_name t))) ts.

Definition attempted (path : bytes) (ts : list table) (os : list (res (list (nat * event)))) (f : file) : Prop :=
  user_path path /\ Forall table_ok ts /\ few (map tb_name (accepted ts)) /\
  attempt path ts = (f, Ok os) /\ zlen (f_disk f) <= 2000000000.

(** What [write] answers. *)
Definition answer (t : table) (o : res (list (nat * event))) : Prop :=
  (has_slash t -> o = Err ENameSlash) /\ (~ has_slash t -> o = Ok (heard t)).
