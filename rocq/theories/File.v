(** Files: riofs/file.rs, riofs/dir.rs, riofs/key.rs. *)
From Verif Require Export Decomp.

(** ** The disk *)

(** What a write at position [p] does to the contents of a file: writing past the
    end leaves a hole of zeros, writing nothing changes nothing. *)
Definition dwrite (d : bytes) (p : Z) (b : bytes) : bytes :=
  match b with
  | [] => d
  | _ => let d' := d ++ repeat 0 (Z.to_nat (p - zlen d)) in
         firstn (Z.to_nat p) d' ++ b ++ skipn (Z.to_nat p + length b) d'
  end.

(** Contents of a file after a sequence of writes to an initially empty file
    ([File::create] truncates). *)
Definition disk_of (log : list (Z * bytes)) : bytes :=
  fold_left (fun d w => dwrite d (fst w) (snd w)) log [].

(** riofs/file.rs 87-95 [RootFileReader::read_at] with the [as u64] conversions of
    its callers: a position that does not fit the operating system's signed offset
    and a short read are I/O errors; a length of [2^63] or more makes
    [vec![0; len]] abort. *)
Definition read_at (d : bytes) (start' len' : Z) : res bytes :=
  let start := to_u64 start' in
  let len := to_u64 len' in
  if 2 ^ 63 <=? start then Err EIo
  else if 2 ^ 63 <=? len then Panic
  else if (len =? 0) || (start + len <=? zlen d) then Ok (zsub d start len)
  else Err EIo.

(** ** The state of a file *)

(** riofs/file.rs 140-146.  A reader is its file's contents, a writer the list of
    writes ([write_at], riofs/file.rs 124-131) made so far, oldest first. *)
Inductive fio := IONone | IORead (d : bytes) | IOWrite (log : list (Z * bytes)).

(** riofs/file.rs 152-159 *)
Record file := mkFile {
  f_io : fio; f_hdr : fhdr; f_dir : dirf; f_spans : list fseg; f_sinfos : list sinfo; f_id : bytes }.

Definition f_set_io f x := mkFile x (f_hdr f) (f_dir f) (f_spans f) (f_sinfos f) (f_id f).
Definition f_set_hdr f x := mkFile (f_io f) x (f_dir f) (f_spans f) (f_sinfos f) (f_id f).
Definition f_set_dir f x := mkFile (f_io f) (f_hdr f) x (f_spans f) (f_sinfos f) (f_id f).
Definition f_set_spans f x := mkFile (f_io f) (f_hdr f) (f_dir f) x (f_sinfos f) (f_id f).
Definition f_set_sinfos f x := mkFile (f_io f) (f_hdr f) (f_dir f) (f_spans f) x (f_id f).

(** Model only: the writes so far. *)
Definition f_log (f : file) : list (Z * bytes) :=
  match f_io f with IOWrite l => l | _ => [] end.
(** Contents on disk of the file behind a handle. *)
Definition f_disk (f : file) : bytes :=
  match f_io f with IOWrite l => disk_of l | IORead d => d | IONone => [] end.

Definition h_set_end h x := mkHdr (fh_version h) (fh_begin h) x (fh_seekfree h) (fh_nbfree h) (fh_nfree h)
  (fh_nbname h) (fh_units h) (fh_comp h) (fh_seekinfo h) (fh_nbinfo h) (fh_uuid h).
Definition h_set_free h n s := mkHdr (fh_version h) (fh_begin h) (fh_end h) s n (fh_nfree h)
  (fh_nbname h) (fh_units h) (fh_comp h) (fh_seekinfo h) (fh_nbinfo h) (fh_uuid h).
Definition h_set_nfree h x := mkHdr (fh_version h) (fh_begin h) (fh_end h) (fh_seekfree h) (fh_nbfree h) x
  (fh_nbname h) (fh_units h) (fh_comp h) (fh_seekinfo h) (fh_nbinfo h) (fh_uuid h).
Definition h_set_nbname h x := mkHdr (fh_version h) (fh_begin h) (fh_end h) (fh_seekfree h) (fh_nbfree h)
  (fh_nfree h) x (fh_units h) (fh_comp h) (fh_seekinfo h) (fh_nbinfo h) (fh_uuid h).
Definition h_set_info h s n := mkHdr (fh_version h) (fh_begin h) (fh_end h) (fh_seekfree h) (fh_nbfree h)
  (fh_nfree h) (fh_nbname h) (fh_units h) (fh_comp h) s n (fh_uuid h).

Definition d_set_pos d nbname seekdir := mkDir (d_rvers d) (d_ctime d) (d_mtime d) (d_nbkeys d) nbname
  seekdir (d_seekparent d) (d_seekkeys d) (d_uuid d) (d_class d) (d_name d) (d_title d) (d_keys d).
Definition d_set_saved d seekkeys nbkeys := mkDir (d_rvers d) (d_ctime d) (d_mtime d) nbkeys (d_nbname d)
  (d_seekdir d) (d_seekparent d) seekkeys (d_uuid d) (d_class d) (d_name d) (d_title d) (d_keys d).
Definition d_set_mtime d t := mkDir (d_rvers d) (d_ctime d) t (d_nbkeys d) (d_nbname d)
  (d_seekdir d) (d_seekparent d) (d_seekkeys d) (d_uuid d) (d_class d) (d_name d) (d_title d) (d_keys d).
Definition d_set_keys d ks := mkDir (d_rvers d) (d_ctime d) (d_mtime d) (d_nbkeys d) (d_nbname d)
  (d_seekdir d) (d_seekparent d) (d_seekkeys d) (d_uuid d) (d_class d) (d_name d) (d_title d) ks.
Definition d_set_names d c n t := mkDir (d_rvers d) (d_ctime d) (d_mtime d) (d_nbkeys d) (d_nbname d)
  (d_seekdir d) (d_seekparent d) (d_seekkeys d) (d_uuid d) c n t (d_keys d).

Definition k_set_buffer k b := mkKey (k_rvers k) (k_nbytes k) (k_objlen k) (k_date k) (k_keylen k)
  (k_cycle k) (k_seek k) (k_pdir k) (k_class k) (k_name k) (k_title k) b.
Definition k_set_cycle k c := mkKey (k_rvers k) (k_nbytes k) (k_objlen k) (k_date k) (k_keylen k)
  c (k_seek k) (k_pdir k) (k_class k) (k_name k) (k_title k) (k_buffer k).
Definition k_set_class k c := mkKey (k_rvers k) (k_nbytes k) (k_objlen k) (k_date k) (k_keylen k)
  (k_cycle k) (k_seek k) (k_pdir k) c (k_name k) (k_title k) (k_buffer k).

(** ** Operations on files: the state is kept whatever the outcome. *)
Definition FM (A : Type) := file -> file * res A.
Definition fret {A} (a : A) : FM A := fun f => (f, Ok a).
Definition flift {A} (r : res A) : FM A := fun f => (f, r).
Definition fbind {A B} (m : FM A) (k : A -> FM B) : FM B := fun f =>
  match m f with
  | (f', Ok a) => k a f'
  | (f', Err e) => (f', Err e)
  | (f', Panic) => (f', Panic)
  | (f', Unmodelled) => (f', Unmodelled)
  | (f', OutOfFuel) => (f', OutOfFuel)
  end.
Definition fgets {A} (g : file -> A) : FM A := fun f => (f, Ok (g f)).
Definition fmodify (g : file -> file) : FM unit := fun f => (g f, Ok tt).

Notation "x <-! m ;; k" := (fbind m (fun x => k))
  (at level 61, m at next level, right associativity) : monad_scope.
Notation "m ;;! k" := (fbind m (fun _ => k))
  (at level 61, right associativity) : monad_scope.

Fixpoint fiter {A} (g : A -> FM unit) (l : list A) : FM unit :=
  match l with [] => fret tt | a :: r => g a ;;! fiter g r end.

(** Bytes a buffer holds after a successful write into a fresh [WBuffer]. *)
Definition wrun {A} (off : Z) (m : W A) : res bytes :=
  match m (w_new off) with
  | Ok (_, s) => Ok (wp s)
  | Err e => Err e | Panic => Panic | Unmodelled => Unmodelled | OutOfFuel => OutOfFuel
  end.
(** Reading from a fresh [RBuffer]. *)
Definition rrun {A} (off : Z) (m : R A) (b : bytes) : res A :=
  match m (r_new b off) with
  | Ok (a, _) => Ok a
  | Err e => Err e | Panic => Panic | Unmodelled => Unmodelled | OutOfFuel => OutOfFuel
  end.

(** Addition of [i32]s: an overflow aborts (as in a debug build; a release build
    wraps around). *)
Definition add_i32 (a b : Z) : res Z :=
  if (-2147483648 <=? a + b) && (a + b <? 2147483648) then Ok (a + b) else Panic.

(** riofs/file.rs 917-919 *)
Definition file_big (f : file) : bool := kStartBigFile <? fh_end (f_hdr f).

(** riofs/file.rs 372-378 [writer], 385-388 [write_at] *)
Definition fwrite (p : Z) (b : bytes) : FM unit := fun f =>
  match f_io f with
  | IOWrite l => (f_set_io f (IOWrite (l ++ [(p, b)])), Ok tt)
  | IORead _ => (f, Err EReadOnly)
  | IONone => (f, Err ENotOpened)
  end.
Definition fwriter : FM unit := fun f =>
  match f_io f with
  | IOWrite _ => (f, Ok tt)
  | IORead _ => (f, Err EReadOnly)
  | IONone => (f, Err ENotOpened)
  end.
(** riofs/file.rs 364-370 [reader] *)
Definition freader (f : file) : res bytes :=
  match f_io f with
  | IORead d => Ok d
  | IOWrite _ => Err EWriteOnly
  | IONone => Err ENotOpened
  end.

(** riofs/file.rs 463-475: [first] of the last span *)
Fixpoint set_last_first (spans : list fseg) (pos : Z) : list fseg :=
  match spans with
  | [] => []
  | [s] => [mkSeg pos (s_last s)]
  | s :: r => s :: set_last_first r pos
  end.

(** riofs/file.rs 463-475 [set_end] *)
Definition set_end (pos : Z) : FM unit :=
  fmodify (fun f => f_set_hdr f (h_set_end (f_hdr f) pos)) ;;!
  spans <-! fgets f_spans ;;
  match rev spans with
  | [] => flift Panic
  | s :: _ => if s_last s =? kStartBigFile
              then fmodify (fun f => f_set_spans f (set_last_first spans pos))
              else flift Panic
  end.

(** riofs/key.rs 513-536 *)
Definition f_keylen (name title class : bytes) (f : file) : Z :=
  key_len_for name title class (dir_big (f_dir f) || file_big f).

(** riofs/key.rs 213-242 [Key::new] *)
Definition key_new (name title class : bytes) (objlen : Z) : FM key :=
  kl <-! fgets (f_keylen name title class) ;;
  nb <-! flift (add_i32 objlen kl) ;;
  eof <-! fgets (fun f => fh_end (f_hdr f)) ;;
  (if 0 <? objlen then set_end (eof + nb) else fret tt) ;;!
  big <-! fgets file_big ;;
  pdir <-! fgets (fun f => d_seekdir (f_dir f)) ;;
  fret (mkKey (if big then 1004 else 4) nb objlen now_ts kl 1 (if 0 <? objlen then eof else 100) pdir
              class name title []).

(** rcompress.rs 57-69 [compress]: asserts the level 1 and stores the bytes as they are. *)
Definition compress (b : bytes) (level : Z) : res bytes :=
  if level =? 1 then Ok b else Panic.

(** The part shared by riofs/key.rs 244-298 [new_from_buffer] and 343-378 of
    [new_from_object]. *)
Definition key_from (kl : Z) (name title class : bytes) (cycle : Z) (buf : bytes) : FM key :=
  let objlen := to_i32 (zlen buf) in
  flift (add_i32 kl objlen) ;;!
  eof <-! fgets (fun f => fh_end (f_hdr f)) ;;
  pdir <-! fgets (fun f => d_seekdir (f_dir f)) ;;
  big <-! fgets file_big ;;
  comp <-! fgets (fun f => fh_comp (f_hdr f)) ;;
  out <-! flift (compress buf comp) ;;
  nb <-! flift (add_i32 kl (to_i32 (zlen out))) ;;
  set_end (eof + nb) ;;!
  fret (mkKey (if big then 1004 else 4) nb objlen now_ts kl cycle eof pdir class name title out).

(** riofs/key.rs 244-298 *)
Definition key_from_buffer (name title class : bytes) (cycle : Z) (buf : bytes) : FM key :=
  kl <-! fgets (f_keylen name title class) ;;
  key_from kl name title class cycle buf.

(** riofs/key.rs 326-379 *)
Definition key_from_object (name title class : bytes) (marsh : W Z) : FM key :=
  kl <-! fgets (f_keylen name title class) ;;
  buf <-! flift (wrun kl marsh) ;;
  key_from kl name title class 1 buf.

(** riofs/key.rs 477-501 [write_to_file]: header first, then payload. *)
Definition key_write (k : key) : FM unit :=
  fwriter ;;!
  hdr <-! flift (wrun 0 (key_marshal k)) ;;
  fwrite (k_seek k) hdr ;;!
  fwrite (k_seek k + k_keylen k) (k_buffer k).

(** riofs/file.rs 477-533 [write_header]: [begin] zeros, then the header. *)
Definition write_fhdr : FM unit :=
  fmodify (fun f => f_set_hdr f (fhdr_units (h_set_nfree (f_hdr f) (to_i32 (zlen (f_spans f)))))) ;;!
  h <-! fgets f_hdr ;;
  hb <-! flift (wrun (fh_begin h) (fhdr_marshal h)) ;;
  fwrite 0 (repeat 0 (Z.to_nat (fh_begin h))) ;;!
  fwrite 0 hb.

(** riofs/file.rs 206-227 *)
Definition file_init (path : bytes) : file :=
  mkFile (IOWrite []) fhdr_new (dir_new path) [mkSeg kBEGIN kStartBigFile] [] path.

(** riofs/file.rs 229-281: the rest of [create] (a path that is not UTF-8 or cannot
    be created is outside the model). *)
Definition create_body : FM unit :=
  d <-! fgets f_dir ;;
  h <-! fgets f_hdr ;;
  let namelen := tstring_sizeof (d_name d) + tstring_sizeof (d_title d) in
  let objlen := namelen + record_size (fh_version h) in
  k <-! key_new (d_name d) (d_title d) (bs "TFile") objlen ;;
  fmodify (fun f => f_set_hdr f (h_set_nbname (f_hdr f) (k_keylen k + namelen))) ;;!
  fmodify (fun f => f_set_dir f (d_set_pos (f_dir f) (k_keylen k + namelen) (k_seek k))) ;;!
  write_fhdr ;;!
  id <-! fgets f_id ;;
  d' <-! fgets f_dir ;;
  buf <-! flift (wrun 0 (write_string id ;;; write_string (d_title d') ;;; dir_marshal d')) ;;
  key_write (k_set_buffer k buf).

(** riofs/file.rs 197-282 [create] *)
Definition create (path : bytes) : file * res unit := create_body (file_init path).

(** ** Objects put into files *)

(** What [put] uses of an object ([FactoryItemWrite]): class, name, title,
    [rversion] and the bytes it marshals. *)
Record wobj := mkObj { o_cls : bytes; o_name : bytes; o_title : bytes; o_vers : Z; o_marsh : W Z }.

(** utils.rs 1-14 *)
Definition core_types : list bytes := [
  bs "TObject"; bs "TFile"; bs "TDirectoryFile"; bs "TKey"; bs "TString"; bs "TDatime"; 
  bs "TVirtualIndex"; bs "TBasket"].
Definition is_core_type (n : bytes) : bool := existsb (beqb n) core_types.

(** utils.rs 16-79 *)
Definition cxx_builtins : list bytes := [
  bs "bool"; bs "int8_t"; bs "uint8_t"; bs "int16_t"; bs "uint16_t"; bs "int32_t"; bs "uint32_t"; 
  bs "int64_t"; bs "uint64_t"; bs "unsigned"; bs "unsigned char"; bs "unsigned short"; 
  bs "unsigned int"; bs "unsigned long"; bs "char"; bs "short"; bs "int"; bs "long"; bs "float"; 
  bs "double"; bs "string"; bs "Bool_t"; bs "Byte_t"; bs "Char_t"; bs "UChar_t"; bs "Short_t"; 
  bs "UShort_t"; bs "Int_t"; bs "UInt_t"; bs "Seek_t"; bs "Long_t"; bs "ULong_t"; bs "Long64_t"; 
  bs "ULong64_t"; bs "Float_t"; bs "Float16_t"; bs "Double_t"; bs "Double32_t"; bs "Version_t"; 
  bs "Option_t"; bs "Ssiz_t"; bs "Real_t"; bs "Axis_t"; bs "Stat_t"; bs "Font_t"; bs "Style_t"; 
  bs "Marker_t"; bs "Width_t"; bs "Color_t"; bs "SCoord_t"; bs "Coord_t"; bs "Angle_t"; bs "Size_t"].
Definition is_cxx_builtin (n : bytes) : bool := existsb (beqb n) cxx_builtins.

(** riofs/file.rs 341-351 [add_streamer_info] *)
Definition add_sinfo (si : sinfo) : FM unit :=
  fmodify (fun f => if existsb (fun s => beqb (si_name s) (si_name si)) (f_sinfos f) then f
                    else f_set_sinfos f (f_sinfos f ++ [si])).

(** riofs/file.rs 299-318: the largest cycle used for a name, or a class clash. *)
Fixpoint scan_cycle (name class : bytes) (ks : list key) (cycle : Z) : res Z :=
  match ks with
  | [] => Ok cycle
  | k :: r =>
      if negb (beqb (k_name k) name) then scan_cycle name class r cycle
      else if negb (beqb (k_class k) class) then Err EKeyClassMismatch
      else scan_cycle name class r (if cycle <? k_cycle k then k_cycle k else cycle)
  end.

Section DB.
(** rdict/streamers/db.rs 29-45 [DbStreamer::get]: any table of class
    descriptions; for versions [<= 0] the code takes whichever version the hash
    map lists first, so the table is not assumed to be coherent. *)
Variable db : bytes -> Z -> option sinfo.

(** riofs/file.rs 284-339 [put] *)
Definition put_obj (name : bytes) (o : wobj) : FM unit :=
  if existsb (Z.eqb 47) name then flift (Err ENameSlash) else
  let name' := match name with [] => o_name o | _ => name end in
  ks <-! fgets (fun f => d_keys (f_dir f)) ;;
  cycle <-! flift (scan_cycle name' (o_cls o) ks 0) ;;
  cycle' <-! flift (add_i32 cycle 1) ;;
  (if is_core_type (o_cls o) then fret tt
   else match db (o_cls o) (o_vers o) with
        | None => flift Panic
        | Some si => add_sinfo si
        end) ;;!
  k <-! key_from_object name' (o_title o) (o_cls o) (o_marsh o) ;;
  let k' := k_set_cycle k (to_i16 cycle') in
  key_write k' ;;!
  fmodify (fun f => f_set_dir f (d_set_keys (f_dir f) (d_keys (f_dir f) ++ [k']))).

(** ** Closing *)

(** The loop of riofs/dir.rs 221-226 adding up lengths *)
Definition sum_list (l : list Z) : Z := fold_right Z.add 0 l.

(** riofs/dir.rs 202-268 [save_keys] on a copy [d] of the directory.  The sum of the
    key lengths is an [i32] sum; it is checked once, at the end. *)
Definition save_keys (d : dirf) : FM dirf :=
  big <-! fgets file_big ;;
  let nb := 4 + (if big then 8 else 0) + sum_list (map k_keylen (d_keys d)) in
  nb' <-! flift (add_i32 nb 0) ;;
  k <-! key_new (d_name d) (d_title d) (bs "TDirectory") nb' ;;
  buf <-! flift (wrun 0 (write_i32 (to_i32 (zlen (d_keys d))) ;;; iterM key_marshal (d_keys d))) ;;
  key_write (k_set_buffer k buf) ;;!
  fret (d_set_saved d (k_seek k) (k_nbytes k)).

(** riofs/dir.rs 270-292 [write_header] *)
Definition write_dir (d : dirf) : FM dirf :=
  let d' := d_set_mtime d now_ts in
  buf <-! flift (wrun 0 (dir_marshal d')) ;;
  fwrite (d_seekdir d' + d_nbname d') buf ;;!
  fret d'.

(** *** Dependencies of streamer infos *)

(** The character class [A-Za-z_0-9] of the expression in riofs/file.rs 785 *)
Definition is_word (c : Z) : bool :=
  ((65 <=? c) && (c <=? 90)) || ((97 <=? c) && (c <=? 122)) || (c =? 95) || ((48 <=? c) && (c <=? 57)).
(** Longest match of that class repeated (riofs/file.rs 785) *)
Fixpoint word_prefix (s : bytes) : bytes * bytes :=
  match s with
  | [] => ([], [])
  | c :: r => if is_word c then let '(w, t) := word_prefix r in (c :: w, t) else ([], s)
  end.
(** The literal part of the expression in riofs/file.rs 785 *)
Fixpoint strip_prefix (p s : bytes) : option bytes :=
  match p, s with
  | [], _ => Some s
  | a :: p', b :: s' => if a =? b then strip_prefix p' s' else None
  | _, _ => None
  end.
(** riofs/file.rs 785-787: first match of [vector<([A-Za-z_0123456789]+)>]. *)
Fixpoint vector_arg (s : bytes) : option bytes :=
  let here := match strip_prefix (bs "vector<") s with
              | Some t => match word_prefix t with
                          | ([], _) => None
                          | (w, 62 :: _) => Some w
                          | _ => None
                          end
              | None => None
              end in
  match here with
  | Some w => Some w
  | None => match s with [] => None | _ :: r => vector_arg r end
  end.

(** Used for [trim_end_matches] (riofs/file.rs 829) *)
Fixpoint trim_start (c : Z) (s : bytes) : bytes :=
  match s with [] => [] | x :: r => if x =? c then trim_start c r else s end.
(** [trim_end_matches] with one character. *)
Definition trim_end (c : Z) (s : bytes) : bytes := rev (trim_start c (rev s)).

(** riofs/file.rs 761-837: the class a member depends on, with the version asked for. *)
Definition dep_of (s : streamer) : res (list (bytes * Z)) :=
  match s with
  | SString e | SStlString e _ _ | SObject e | SObjectAny e => Ok [(e_ename e, -1)]
  | SBasicType _ | SBasicPointer _ _ _ _ => Ok []
  | SStl e vtype _ =>
      if vtype =? 1 then
        match vector_arg (e_ename e) with Some w => Ok [(w, -1)] | None => Panic end
      else Panic
  | SBase e vbase => Ok [(n_name (e_named e), to_i16 vbase)]
  | SObjectPointer e => Ok [(trim_end 42 (e_ename e), -1)]
  end.

(** rdict/mod.rs 431-476: the class whose members are visited next. *)
Definition next_of (s : streamer) : res (option bytes) :=
  match s with
  | SString _ | SStlString _ _ _ | SBasicType _ | SBasicPointer _ _ _ _ => Ok None
  | SObject e | SObjectAny e => Ok (Some (e_ename e))
  | SStl _ vtype _ => if vtype =? 1 then Ok None else Panic
  | SBase e _ => Ok (Some (n_name (e_named e)))
  | SObjectPointer e => Ok (Some (trim_end 42 (e_ename e)))
  end.

(** rdict/mod.rs 382-480 [Visitor::run] and [visit]; [fuel] is 10 minus the depth,
    at which [visit] gives up ([todo!]).  The list of visited element numbers is
    left out: elements copied from the table get new numbers, so it never stops
    anything. *)
Fixpoint visit (fuel : nat) (s : streamer) : res (list (bytes * Z)) :=
  match fuel with
  | O => Panic
  | S n =>
      d <-? dep_of s ;;
      let tname := e_ename (s_elem s) in
      if beqb tname (bs "TVirtualIndex") || beqb tname (bs "TVirtualIndex*") then Ok d else
      nx <-? next_of s ;;
      match nx with
      | None => Ok d
      | Some c =>
          match db c (-1) with
          | None => Panic
          | Some si =>
              l <-? (fix run (es : list streamer) : res (list (bytes * Z)) :=
                       match es with
                       | [] => Ok []
                       | e :: r => a <-? visit n e ;; b <-? run r ;; Ok (a ++ b)
                       end) (si_elems si) ;;
              Ok (d ++ l)
          end
      end
  end.
Fixpoint visit_all (es : list streamer) : res (list (bytes * Z)) :=
  match es with
  | [] => Ok []
  | e :: r => a <-? visit 10 e ;; b <-? visit_all r ;; Ok (a ++ b)
  end.
Fixpoint all_deps (sis : list sinfo) : res (list (bytes * Z)) :=
  match sis with
  | [] => Ok []
  | si :: r => a <-? visit_all (si_elems si) ;; b <-? all_deps r ;; Ok (a ++ b)
  end.

(** riofs/file.rs 842-866 *)
Definition add_dep (d : bytes * Z) : FM unit :=
  if is_core_type (fst d) || is_cxx_builtin (fst d) then fret tt
  else match db (fst d) (snd d) with None => flift Panic | Some si => add_sinfo si end.

(** riofs/file.rs 739-880 *)
Definition find_deep : FM unit :=
  sis <-! fgets f_sinfos ;;
  deps <-! flift (all_deps sis) ;;
  fiter add_dep deps.

(** riofs/file.rs 616-692 [write_streamer_info] *)
Definition write_sinfos : FM unit :=
  find_deep ;;!
  sis <-! fgets f_sinfos ;;
  h <-! fgets f_hdr ;;
  if negb (fh_seekinfo h =? 0) then flift Panic else
  let name := bs "StreamerInfo" in
  let title := bs "Doubly linked list" in
  k0 <-! key_new name title (bs "TList") 0 ;;
  buf <-! flift (wrun (k_keylen k0) (sinfos_marshal sis)) ;;
  k <-! key_from_buffer name title (bs "TList") 1 buf ;;
  fmodify (fun f => f_set_hdr f (h_set_info (f_hdr f) (k_seek k) (k_nbytes k))) ;;!
  key_write k.

(** riofs/file.rs 694-737 [write_free_segments] *)
Definition write_free : FM unit :=
  h <-! fgets f_hdr ;;
  if negb (fh_seekfree h =? 0) then flift Panic else
  spans <-! fgets f_spans ;;
  d <-! fgets f_dir ;;
  nb <-! flift (add_i32 (sum_list (map seg_size spans)) 0) ;;
  k <-! key_new (d_name d) (d_title d) (bs "TFile") nb ;;
  if k_seek k =? 0 then flift Panic else
  spans' <-! fgets f_spans ;;
  buf <-! flift (wrun 0 (iterM seg_marshal spans')) ;;
  if negb (zlen buf =? k_objlen k) then flift Panic else
  fmodify (fun f => f_set_hdr f (h_set_free (f_hdr f) (k_nbytes k) (k_seek k))) ;;!
  key_write (k_set_buffer k buf).

(** riofs/dir.rs 187-200, riofs/file.rs 353-362 [close] *)
Definition close : FM unit :=
  d <-! fgets f_dir ;;
  d1 <-! save_keys d ;;
  d2 <-! write_dir d1 ;;
  fmodify (fun f => f_set_dir f d2) ;;!
  write_sinfos ;;!
  write_free ;;!
  write_fhdr.

End DB.

(** ** Opening and reading *)

Definition u64_add (a b : Z) : res Z := if a + b <? 2 ^ 64 then Ok (a + b) else Panic.

(** riofs/dir.rs 131-185 [read_dir_info]; [as u64] of a negative number wraps, the
    [u64] additions abort on overflow. *)
Definition read_dir_info (d : bytes) (h : fhdr) : res dirf :=
  nbytes <-? u64_add (to_u64 (fh_nbname h)) (record_size (fh_version h)) ;;
  tot <-? u64_add nbytes (to_u64 (fh_begin h)) ;;
  if to_u64 (fh_end h) <? tot then Err EHeaderLength else
  data <-? read_at d (fh_begin h) nbytes ;;
  dir <-? rrun 0 dir_unmarshal (zsub data (fh_nbname h) (zlen data - fh_nbname h)) ;;
  kv <-? rrun 0 read_i16 (zsub data 4 (zlen data - 4)) ;;
  let nk := 4 + 2 + 8 + 4 + (if 1000 <? kv then 16 else 8) in
  if zlen data <? nk then Panic else
  ' (c, n, t) <-? rrun 0 (c <- read_string ;; n <- read_string ;; t <- read_string ;; ret (c, n, t))
                     (zsub data nk (zlen data - nk)) ;;
  if (d_nbname dir <? 10) || (1000 <? d_nbname dir) then Err EDirInfo
  else Ok (d_set_names dir c n t).

(** riofs/key.rs 392-415 [is_compressed], [load]; [n_bytes - key_len] is an [i32]
    subtraction (392) and then one of [u64] (404), [vec![0; obj_len as usize]] aborts if
    the length is negative. *)
Definition u64_sub (a b : Z) : res Z := if b <=? a then Ok (a - b) else Panic.
Section Load.
Context {L : decoders}.
Definition key_bytes (d : bytes) (k : key) : res bytes :=
  if k_objlen k =? k_nbytes k - k_keylen k then
    start <-? u64_add (to_u64 (k_seek k)) (to_u64 (k_keylen k)) ;;
    read_at d start (k_objlen k)
  else if k_nbytes k - k_keylen k <? -2147483648 then Panic
  else if k_objlen k <? 0 then Panic else
    start <-? u64_add (to_u64 (k_seek k)) (to_u64 (k_keylen k)) ;;
    len <-? u64_sub (to_u64 (k_nbytes k)) (to_u64 (k_keylen k)) ;;
    sr <-? read_at d start len ;;
    decompress (k_objlen k) sr.

(** riofs/key.rs 417-456 [object]; nested objects cost at least one byte each, so
    the length of the payload bounds the nesting. *)
Definition key_object (d : bytes) (k : key) : res robj :=
  buf <-? key_bytes d k ;;
  if negb (known (k_class k)) then Err EClassNotRegistered else
  rrun (k_keylen k) (um (S (length buf)) (k_class k)) buf.

End Load.

(** riofs/file.rs 560-564: until the buffer is empty *)
Fixpoint read_spans (fuel : nat) : R (list fseg) :=
  match fuel with
  | O => outoffuel
  | S n => e <- gets r_is_empty ;;
           if (e : bool) then ret [] else s <- seg_unmarshal ;; l <- read_spans n ;; ret (s :: l)
  end.

Section Open.
Context {L : decoders}.

(** riofs/file.rs 535-567 [read_free_segments] *)
Definition read_free_segments (d : bytes) (h : fhdr) : res (list fseg) :=
  buf <-? read_at d (fh_seekfree h) (fh_nbfree h) ;;
  k <-? rrun 0 key_unmarshal buf ;;
  b <-? key_bytes d k ;;
  rrun 0 (read_spans (S (length b))) b.

(** riofs/file.rs 597-611: which items of the list are class descriptions; anything
    else must be a list. *)
Fixpoint pick_sinfos (l : list robj) : res (list sinfo) :=
  match l with
  | [] => Ok []
  | OSInfo s :: r => l' <-? pick_sinfos r ;; Ok (s :: l')
  | OList _ _ :: r => pick_sinfos r
  | _ => Panic
  end.

(** riofs/file.rs 569-614 [read_streamer_info]: last item first *)
Definition read_sinfos (d : bytes) (h : fhdr) : res (list sinfo) :=
  if (fh_seekinfo h <=? 0) || (fh_end h <=? fh_seekinfo h) then Err EStreamerPtr else
  buf <-? read_at d (fh_seekinfo h) (fh_nbinfo h) ;;
  k <-? rrun 0 key_unmarshal buf ;;
  o <-? key_object d k ;;
  match o with
  | OList _ items => pick_sinfos (rev items)
  | _ => Panic
  end.

(** riofs/dir.rs 92-129 [read_keys] *)
Definition fix_class (k : key) : key :=
  if beqb (k_class k) (bs "TDirectory") then k_set_class k (bs "TDirectoryFile") else k.
Definition read_keys (d : bytes) (dir : dirf) : res (list key) :=
  if d_seekkeys dir <=? 0 then Err ENegSeekKeys else
  data <-? read_at d (d_seekkeys dir) (d_nbkeys dir) ;;
  hdr <-? rrun 0 key_unmarshal data ;;
  start <-? u64_add (to_u64 (d_seekkeys dir)) (to_u64 (k_keylen hdr)) ;;
  data' <-? read_at d start (k_objlen hdr) ;;
  rrun 0 (n <- read_i32 ;; l <- repeatM (Z.to_nat n) key_unmarshal ;; ret (map fix_class l)) data'.

(** riofs/file.rs 179-195 [open], 390-461 [read_header] *)
Definition open_file (d : bytes) : res file :=
  buf <-? read_at d 0 76 ;;
  h <-? rrun 0 fhdr_unmarshal buf ;;
  dir <-? read_dir_info d h ;;
  spans <-? (if 0 <? fh_seekfree h then read_free_segments d h else Ok []) ;;
  sis <-? (if 0 <? fh_seekinfo h then read_sinfos d h else Ok []) ;;
  ks <-? read_keys d dir ;;
  Ok (mkFile (IORead d) h (d_set_keys dir ks) spans sis []).

End Open.

(** riofs/utils.rs 4-15 [decode_name_cycle] *)
Definition decode_name_cycle (s : bytes) : res bytes :=
  match zlen (filter (Z.eqb 59) s) with
  | 0 => Ok s
  | 1 => Panic
  | _ => Err ENameCycle
  end.

(** riofs/dir.rs 330: [sort_by_key] is stable, so the last of the sorted keys is the last one with the
    largest cycle. *)
Fixpoint best_key (best : key) (ks : list key) : key :=
  match ks with
  | [] => best
  | k :: r => best_key (if k_cycle best <=? k_cycle k then k else best) r
  end.

(** riofs/file.rs 882-885, riofs/dir.rs 294-343 [get_object] *)
Definition get_object {L : decoders} (f : file) (namecycle : bytes) : res robj :=
  d <-? freader f ;;
  name <-? decode_name_cycle namecycle ;;
  match filter (fun k => beqb (k_name k) name) (d_keys (f_dir f)) with
  | [] => Err EKeyNotInFile
  | k :: r => key_object d (best_key k r)
  end.

(** riofs/file.rs 894-901 [get_tree]: anything but a tree aborts. *)
Definition get_tree {L : decoders} (f : file) (name : bytes) : res (tree branch) :=
  o <-? get_object f name ;;
  match o with OTree t => Ok t | _ => Panic end.

(** riofs/file.rs 955-960: description of a class by name, last match *)
Definition sinfo_get (sis : list sinfo) (name : bytes) : option sinfo :=
  find (fun s => beqb (si_name s) name) (rev sis).

(** riofs/file.rs 903-905 *)
Definition keys_name (f : file) : list bytes := map k_name (d_keys (f_dir f)).
