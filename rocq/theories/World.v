(** Several files, handles and iterators at a time: the file system as the library uses
    it, and programs that use the library in any order. *)
From Verif Require Export Lazy TreeSession StreamerDb.

(** ** Iterators over a file that may change

    The reader of a branch keeps the path of the file and opens it again for every basket:
    riofs/file.rs 98-102 [clone], tbranch.rs 204-206, tbranch_element.rs 343-344.  So a
    basket that has not been read yet is a function of the contents of the file at the
    time it is read; if there is no file at the path any more, [clone] panics. *)
Record iter := mkIter { it_front : list val; it_todo : list (option bytes -> res (list val)) }.

(** rtree/branch/mod.rs 164-264 [as_iter]; see [open_iter] in Lazy.v *)
Definition basket_later (sis : list sinfo) (t : ty) (b : branch) (x : Z * Z * Z * leaf) (d : option bytes) : res (list val) :=
  let '(seek, len, size, l) := x in
  match d with
  | None => Panic
  | Some d => c <-? basket_chunk d sis b seek len size l ;; read_chunk (unmarshal t) c
  end.
Definition open_later (sis : list sinfo) (t : ty) (b : branch) : res iter :=
  name <-? item_type_name sis b ;;
  if existsb (beqb name) (r_classes t) then
    match br_subs b with
    | [] =>
        let c := br_core b in
        sz <-? sizes_for b ;;
        ls <-? leaves_for b ;;
        em <-? embedded_todo sis b ;;
        Ok (mkIter [] (map (fun c (_ : option bytes) => c' <-? c ;; read_chunk (unmarshal t) c') em ++
                       map (basket_later sis t b) (filter (fun '(_, len, _, _) => 0 <? len) (zip4 (b_seek c) (b_bytes c) sz ls))))
    | _ => Unmodelled
    end
  else Err ETypeMismatch.

(** [next] with the contents of the file at that time *)
Fixpoint next_later (d : option bytes) (todo : list (option bytes -> res (list val))) : res (option val * iter) :=
  match todo with
  | [] => Ok (None, mkIter [] [])
  | g :: rest => l <-? g d ;; match l with [] => next_later d rest | a :: l' => Ok (Some a, mkIter l' rest) end
  end.
(** The same, starting with the basket that is open. *)
Definition next_at (d : option bytes) (it : iter) : res (option val * iter) :=
  match it_front it with
  | a :: l => Ok (Some a, mkIter l (it_todo it))
  | [] => next_later d (it_todo it)
  end.

(** ** The file system and the handles of a program

    A path leads to at most one file; different paths lead to different files (no links).
    A file that is removed and created again is another file, told apart by a number; a
    writer keeps writing to the file it has created.  [File::create] empties an existing
    file. *)
Inductive handle :=
| HWriter (p : bytes) (g : nat) (f : file) (n : nat)  (* a [RootFile] created at [p], file [g] there; [n] writes have left its buffer *)
| HReader (p : bytes) (f : file)                      (* a [RootFile] opened at [p] *)
| HTree (p : bytes) (sis : list sinfo) (t : tree branch)   (* a [ReaderTree] *)
| HIter (p : bytes) (it : iter).                      (* what [as_iter] returned *)

Record world := mkW {
  w_at : bytes -> option nat;          (* the file at a path *)
  w_next : bytes -> nat;               (* the number of the next file at a path *)
  w_data : bytes -> nat -> bytes;      (* the contents of a file *)
  w_h : nat -> option handle }.        (* the handles of the program, by number *)

Definition content (w : world) (p : bytes) : option bytes :=
  match w_at w p with Some g => Some (w_data w p g) | None => None end.

Definition upd_p {A} (m : bytes -> A) (p : bytes) (a : A) : bytes -> A := fun q => if beqb p q then a else m q.
Definition upd_n {A} (m : nat -> A) (n : nat) (a : A) : nat -> A := fun k => if Nat.eqb n k then a else m k.
(** Updates of the world. *)
Definition set_h (w : world) (i : nat) (h : option handle) : world := mkW (w_at w) (w_next w) (w_data w) (upd_n (w_h w) i h).
Definition set_data (w : world) (p : bytes) (g : nat) (d : bytes) : world :=
  mkW (w_at w) (w_next w) (upd_p (w_data w) p (upd_n (w_data w p) g d)) (w_h w).

(** riofs/file.rs 104-131: the writer is a [BufWriter] (of 8192 bytes), which empties its
    buffer before it seeks; every write seeks first.  So all writes but the last have
    reached the file, and the last one too unless it fits in the buffer. *)
Definition log_of (f : file) : list (Z * bytes) := match f_io f with IOWrite l => l | _ => [] end.
Definition flushed (l : list (Z * bytes)) : nat :=
  match rev l with
  | (_, b) :: _ => if zlen b <? 8192 then length l - 1 else length l
  | [] => 0
  end.
Definition apply_writes (d : bytes) (l : list (Z * bytes)) : bytes := fold_left (fun d w => dwrite d (fst w) (snd w)) l d.
(** The writes of [f] from number [n] up to number [m] reach file [g] at [p]. *)
Definition sync (w : world) (p : bytes) (g : nat) (f : file) (n m : nat) : world :=
  set_data w p g (apply_writes (w_data w p g) (firstn (m - n) (skipn n (log_of f)))).

(** ** Programs: calls of the library, and removals of files, in any order *)
Inductive action :=
| ACreate (p : bytes)                              (* [RootFile::create] *)
| AWrite (t : tprog)                               (* a [WriterTree] is made and written *)
| AClose                                           (* [RootFile::close] *)
| ADrop                                            (* the value is dropped *)
| AOpen (p : bytes)                                (* [RootFile::open] *)
| AGet (from : nat) (name : bytes)                 (* [RootFile::get_tree] *)
| AIter (from : nat) (name : bytes) (t : ty)       (* [ReaderTree::branch], [Branch::as_iter] *)
| ANext                                            (* [Iterator::next] *)
| ARemove (p : bytes).                             (* somebody removes the file *)
(** [o_id] is the handle that is used or made. *)
Record op := mkOp { o_id : nat; o_act : action }.

Inductive reply :=
| Done
| Heard (l : list (nat * event))  (* what the callbacks of a tree have heard *)
| Absent                          (* no such branch *)
| Got (v : option val)
| Misuse.                         (* no program can do this: no such handle, or one already in use *)

(** rtree/tree/writer.rs and riofs/file.rs: a call on a writer. *)
Definition on_writer {A} (w : world) (i : nat) (m : FM A) (say : A -> reply) : world * res reply :=
  match w_h w i with
  | Some (HWriter p g f n) =>
      let '(f', r) := m f in
      let k := flushed (log_of f') in
      (set_h (sync w p g f' n k) i (Some (HWriter p g f' k)), x <-? r ;; Ok (say x))
  | _ => (w, Ok Misuse)
  end.
(** A handle is made of what a call returns. *)
Definition make {A} (w : world) (i : nat) (r : res A) (h : A -> handle) : world * res reply :=
  match r with Ok a => (set_h w i (Some (h a)), Ok Done) | _ => (w, x <-? r ;; Ok Done) end.
Definition free (w : world) (i : nat) : bool := match w_h w i with None => true | Some _ => false end.

Definition step (w : world) (o : op) : world * res reply :=
  let i := o_id o in
  match o_act o with
  | ACreate p =>
      if negb (free w i) then (w, Ok Misuse) else
      let g := match w_at w p with Some g => g | None => w_next w p end in
      let w1 := mkW (upd_p (w_at w) p (Some g))
                    (upd_p (w_next w) p (match w_at w p with Some _ => w_next w p | None => S g end))
                    (upd_p (w_data w) p (upd_n (w_data w p) g [])) (w_h w) in
      let '(f, r) := create p in
      match r with
      | Ok _ => let k := flushed (log_of f) in (set_h (sync w1 p g f 0 k) i (Some (HWriter p g f k)), Ok Done)
      | _ => (sync w1 p g f 0 (length (log_of f)), x <-? r ;; Ok Done)
      end
  | AWrite t => on_writer w i (write_one real_db t) Heard
  | AClose => on_writer w i (close real_db) (fun _ => Done)
  | ADrop =>
      match w_h w i with
      | Some (HWriter p g f n) => (set_h (sync w p g f n (length (log_of f))) i None, Ok Done)
      | Some _ => (set_h w i None, Ok Done)
      | None => (w, Ok Misuse)
      end
  | AOpen p =>
      if negb (free w i) then (w, Ok Misuse) else
      make w i (match content w p with Some d => open_file d | None => Err EIo end) (HReader p)
  | AGet j name =>
      if negb (free w i) then (w, Ok Misuse) else
      match w_h w j with
      | Some (HReader p f) =>
          make w i (match content w p with Some d => get_tree (f_set_io f (IORead d)) name | None => Panic end) (HTree p (f_sinfos f))
      | Some (HWriter p _ f _) => make w i (get_tree f name) (HTree p (f_sinfos f))
      | _ => (w, Ok Misuse)
      end
  | AIter j name t =>
      if negb (free w i) then (w, Ok Misuse) else
      match w_h w j with
      | Some (HTree p sis r) =>
          match tree_branch r name with
          | Some b => make w i (open_later sis t b) (HIter p)
          | None => (w, Ok Absent)
          end
      | _ => (w, Ok Misuse)
      end
  | ANext =>
      match w_h w i with
      | Some (HIter p it) =>
          match next_at (content w p) it with
          | Ok (v, it') => (set_h w i (Some (HIter p it')), Ok (Got v))
          | r => (w, x <-? r ;; Ok Done)
          end
      | _ => (w, Ok Misuse)
      end
  | ARemove p => (mkW (upd_p (w_at w) p None) (w_next w) (w_data w) (w_h w), Ok Done)
  end.

(** A program, with all answers. *)
Fixpoint run (w : world) (ops : list op) : world * list (res reply) :=
  match ops with
  | [] => (w, [])
  | o :: r => let '(w1, a) := step w o in let '(w2, l) := run w1 r in (w2, a :: l)
  end.

(** Before the program starts: no files, no handles. *)
Definition empty_world : world := mkW (fun _ => None) (fun _ => 0%nat) (fun _ _ => []) (fun _ => None).
