(** * Which files sheetpack leaves open

    The files, the memory map and the archive that sheetpack opens by the name
    of a workbook, call by call; what is made of the content is that of
    Biff.v, BiffOld.v and ReadXl.v. Any call that opens or reads may raise. Not
    modelled: failures while the mapped memory or a member of the archive is
    read, and what the garbage collector closes later. *)

From Verif Require Import PyBase PyText NumPy Pack Dbf ReadXl CompDoc Biff BiffOld FileIO.
Open Scope nat_scope.

(** What an attribute of a Book holds: bytes, the memory map, or None
    (xlrd/book.py l.552-559, 613-614, 641-653). *)
Inductive owned := Bytes | Map | Nothing.

(** What is open: file objects, the memory map (xlrd/book.py l.641), the archive
    (xlrd/__init__.py l.117); the attributes mem and filestr of the Book
    (xlrd/book.py l.613-614); and the number of calls made so far. *)
Record osys := mkos
  { os_files : nat;
    os_map : bool;
    os_zip : bool;
    os_mem : owned;
    os_filestr : owned;
    os_calls : nat }.

(** Nothing open, a new Book (xlrd/book.py l.613-614). *)
Definition os_start : osys := mkos 0 false false Bytes Bytes 0.

(** Code that opens and closes; what it returns or raises (the body of
    readxl.py l.127-151). *)
Definition prog (A : Type) := osys -> osys * res A.

(** Code that opens and closes nothing (e.g. readxl.py l.128-151). *)
Definition just {A} (r : res A) : prog A := fun s => (s, r).

(** Statement after statement (e.g. xlrd/book.py l.634-638). *)
Definition next {A B} (m : prog A) (f : A -> prog B) : prog B := fun s =>
  match m s with
  | (s', Ok a) => f a s'
  | (s', Err e) => (s', Err e)
  end.

Notation "'let+' x ':=' m 'in' k" := (next m (fun x => k))
  (at level 200, x pattern, m at level 100, k at level 200, right associativity).

(** One call of the system: it raises, or [f] is done (e.g. open, xlrd/book.py
    l.634; mmap.mmap, l.641). *)
Definition oscall (fl : faults) (f : osys -> osys) : prog unit := fun s =>
  let s' := mkos (os_files s) (os_map s) (os_zip s) (os_mem s) (os_filestr s) (S (os_calls s)) in
  match fl (os_calls s) with
  | Some e => (s', Err e)
  | None => (f s', Ok tt)
  end.

(** The number of open file objects changed (open and close of xlrd/__init__.py
    l.111, xlrd/book.py l.634). *)
Definition set_files (f : nat -> nat) (s : osys) : osys :=
  mkos (f (os_files s)) (os_map s) (os_zip s) (os_mem s) (os_filestr s) (os_calls s).

(** The memory map opened or closed (xlrd/book.py l.641; 555, 558, 674). *)
Definition set_map (b : bool) (s : osys) : osys :=
  mkos (os_files s) b (os_zip s) (os_mem s) (os_filestr s) (os_calls s).

(** zipfile.ZipFile(filename) (xlrd/__init__.py l.117). *)
Definition set_zip (s : osys) : osys :=
  mkos (os_files s) (os_map s) true (os_mem s) (os_filestr s) (os_calls s).

(** self.mem = ... (xlrd/book.py l.653, 659). *)
Definition set_mem (o : owned) (s : osys) : osys :=
  mkos (os_files s) (os_map s) (os_zip s) o (os_filestr s) (os_calls s).

(** self.filestr = ... (xlrd/book.py l.641, 644, 675). *)
Definition set_filestr (o : owned) (s : osys) : osys :=
  mkos (os_files s) (os_map s) (os_zip s) (os_mem s) o (os_calls s).

(** with open(filename, "rb") as f: body (xlrd/__init__.py l.111-112,
    xlrd/book.py l.634-645): closed however the body ends. *)
Definition with_open {A} (fl : faults) (body : prog A) : prog A :=
  let+ _ := oscall fl (set_files S) in
  fun s => let '(s', r) := body s in (set_files pred s', r).

(** if hasattr(x, "close"): x.close() (xlrd/book.py l.553-558, 673-674). *)
Definition close_owned (o : owned) (s : osys) : osys :=
  match o with Map => set_map false s | _ => s end.

(** release_resources (xlrd/book.py l.540-561). *)
Definition release (s : osys) : osys :=
  let s := set_mem Nothing (close_owned (os_mem s) s) in
  set_filestr Nothing (close_owned (os_filestr s) s).

(** biff2_8_load (xlrd/book.py l.616-676); [same] tells whether the stream of a
    compound document lies in one piece, so that mem is filestr (l.672). *)
Definition load_files (fl : faults) (use_mmap same : bool) (file : str) : prog unit :=
  let+ _ :=
    with_open fl
      (let+ _ := oscall fl (fun s => s) in                               (* seek, l.635 *)
       let+ _ := oscall fl (fun s => s) in                               (* tell, l.636 *)
       let+ _ := oscall fl (fun s => s) in                               (* seek, l.637 *)
       match file with
       | [] => just (Err XLRDError)                                      (* l.638-639 *)
       | _ => if use_mmap
              then oscall fl (fun s => set_filestr Map (set_map true s)) (* l.641 *)
              else oscall fl (set_filestr Bytes)                         (* l.644 *)
       end) in
  if negb (str_eqb (bytes_at 0 8 file) SIGNATURE)
  then fun s => (set_mem (os_filestr s) s, Ok tt)                        (* l.653 *)
  else
    let+ _ := just (load file) in
    fun s =>
      if same then (set_mem (os_filestr s) s, Ok tt)
      else (set_filestr Bytes (close_owned (os_filestr s) (set_mem Bytes s)), Ok tt).

(** open_workbook_xls (xlrd/book.py l.70-143). *)
Definition open_xls_files (fl : faults) (dec : decoder) (use_mmap same : bool) (file : str) : prog book :=
  fun s =>
    let '(s', r) := (let+ _ := load_files fl use_mmap same file in just (open_xls_dec dec file)) s in
    (release s', r).                                                     (* l.137, 141 *)

(** open_workbook (xlrd/__init__.py l.24-160); [zipped] is what comes out of an
    archive. *)
Definition open_files (fl : faults) (dec : decoder) (use_mmap same : bool) (file : str) (zipped : res book)
  : prog book :=
  let+ _ := with_open fl (oscall fl (fun s => s)) in                     (* l.111-112 *)
  if str_eqb (bytes_at 0 4 file) [80; 75; 3; 4]%N
  then let+ _ := oscall fl set_zip in just zipped                        (* l.117 *)
  else open_xls_files fl dec use_mmap same file.

(** sheetpack (readxl.py l.97-156); __exit__ of the Book (xlrd/book.py l.566)
    releases once more. *)
Definition sheetpack_files (fl : faults) (dec : decoder) (use_mmap same : bool) (file : str) (zipped : res book)
  (fname : str) (which header : pyobj) (startcell stopcell : option str) (usecols : pyobj) : prog pack :=
  let+ _ := just (cellreference 0 0 startcell) in
  let+ _ := just (cellreference 0 0 stopcell) in
  let+ wb := open_files fl dec use_mmap same file zipped in
  fun s => (release s, sheetpack wb fname which header startcell stopcell usecols).
