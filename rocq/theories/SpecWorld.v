(** Specification vocabulary for programs that use several files and handles. *)
From Verif Require Import Base File World SpecTree.

(** The path a call names; the path whose file a call creates, empties or removes. *)
Definition names_path (o : op) (p : bytes) : Prop :=
  match o_act o with ACreate q | AOpen q | ARemove q => q = p | _ => False end.
Definition replaces (o : op) (p : bytes) : Prop :=
  match o_act o with ACreate q | ARemove q => q = p | _ => False end.
(** The handle a new handle is made from. *)
Definition made_from (o : op) (j : nat) : Prop :=
  match o_act o with AGet k _ | AIter k _ _ => k = j | _ => False end.

Definition handle_path (h : handle) : bytes :=
  match h with HWriter p _ _ _ | HReader p _ | HTree p _ _ | HIter p _ => p end.
Definition is_writer (h : handle) : Prop := match h with HWriter _ _ _ _ => True | _ => False end.

(** One part of a program: the calls on the handles [mine], which use only the files at the
    paths [used] and no handle of the rest of the program. *)
Definition uses_only (mine : nat -> bool) (used : bytes -> Prop) (ops : list op) : Prop :=
  forall o, In o ops -> mine (o_id o) = true -> (forall p, names_path o p -> used p) /\ (forall j, made_from o j -> mine j = true).
(** The rest of the program does not replace these files. *)
Definition leaves_alone (mine : nat -> bool) (used : bytes -> Prop) (ops : list op) : Prop :=
  forall o, In o ops -> mine (o_id o) = false -> forall p, replaces o p -> ~ used p.
(** The same about the handles there are at the start. *)
Definition parted_handles (mine : nat -> bool) (used : bytes -> Prop) (w : world) : Prop :=
  forall i h, w_h w i = Some h ->
    (mine i = true -> used (handle_path h)) /\ (mine i = false -> is_writer h -> ~ used (handle_path h)).

(** The answers to the calls of that part. *)
Definition answers_to (mine : nat -> bool) (ops : list op) (l : list (res reply)) : list (res reply) :=
  map snd (filter (fun x => mine (o_id (fst x))) (combine ops l)).
Definition calls_of (mine : nat -> bool) (ops : list op) : list op := filter (fun o => mine (o_id o)) ops.

(** The calls that write the tables [ts] to a new file at [path], with handle [i]. *)
Definition writing (i : nat) (path : bytes) (ts : list table) : list op :=
  mkOp i (ACreate path) :: map (fun t => mkOp i (AWrite (SpecTree.calls t))) ts.
Definition writing_all (i : nat) (path : bytes) (ts : list table) : list op :=
  writing i path ts ++ [mkOp i AClose; mkOp i ADrop].
(** The calls that open the file at [path] as [i], get tree [tree] as [j] and read [n] values of
    its column [col] with [k]. *)
Definition reading (i j k : nat) (path tree col : bytes) (t : ty) (n : nat) : list op :=
  [mkOp i (AOpen path); mkOp j (AGet i tree); mkOp k (AIter j col t)] ++ repeat (mkOp k ANext) n.

(** No writer of the file at [path] is alive. *)
Definition nobody_writes (w : world) (path : bytes) : Prop :=
  forall i h, w_h w i = Some h -> is_writer h -> handle_path h <> path.
Definition one_of (ids : list nat) (n : nat) : bool := existsb (Nat.eqb n) ids.
(** The answers when the tables are written, and when the values [vs] are read one by one. *)
Definition written_answers (es : list (list (nat * event))) : list (res reply) :=
  Ok Done :: map (fun e => Ok (Heard e)) es ++ [Ok Done; Ok Done].
Definition read_answers (vs : list val) (n : nat) : list (res reply) :=
  [Ok Done; Ok Done; Ok Done] ++ map (fun m => Ok (Got (nth_error vs m))) (seq 0 n).
