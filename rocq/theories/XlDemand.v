(** * Sheets read when they are asked for

    channelpack/xlrd/book.py l.70-143, 452-563, 721-747, with on_demand of
    open_workbook true or false, for BIFF8 files. Left out: BIFF 5 and 7 (whose
    sheets are read the same way), the mmap object that release_resources
    closes, keys that are bool. Of the book's attributes that reading a sheet may
    change only countries is kept; Sheet.read changes no other of those that
    another sheet's cells depend on. *)

From Coq Require Import ZArith.
From Verif Require Import PyBase PyText PyFloat NumPy Dbf ReadXl CompDoc XlSheet Biff.
Open Scope Z_scope.

(** A Sheet object, sheet.py l.320-331: which object it is (they are numbered as
    they are made), its number, name and cells. *)
Record loaded := mkloaded { l_id : nat; l_number : Z; l_name : str; l_sheet : sheet }.

(** A Book, book.py: mem, what the globals gave (_sheet_names and _sh_abs_posn
    are the two halves of b_sheets), countries, _sheet_list,
    _resources_released; and how many Sheet objects have been made. *)
Record obook := mkobook {
  ob_mem : str; ob_globals : globals; ob_countries : Z * Z; ob_list : list (option loaded);
  ob_released : bool; ob_made : nat }.

(** The list with another element at [k], book.py l.538, 739. *)
Fixpoint put {A} (k : nat) (x : A) (l : list A) : list A :=
  match l, k with
  | [], _ => []
  | _ :: l, O => x :: l
  | y :: l, S k => y :: put k x l
  end.

(** l[i] = x, book.py l.538, 739; None is IndexError. *)
Definition py_put {A} (l : list A) (i : Z) (x : A) : option (list A) :=
  let n := Z.of_nat (length l) in
  let j := if i <? 0 then i + n else i in
  if (0 <=? j) && (j <? n) then Some (put (Z.to_nat j) x l) else None.

(** book.countries when Sheet.read stops, with an exception or at EOF,
    sheet.py l.811-1501 with book.py l.868-873. *)
Fixpoint countries_left (fuel : nat) (su : setup) (mem : str) (strings : list str) (pos : Z) (st : reading) : Z * Z :=
  match fuel with
  | O => r_countries st
  | S f =>
      match get_record mem pos with
      | Err _ => r_countries st
      | Ok (rc, len, data, pos) =>
          if rc =? 0x0a then r_countries st
          else match sheet_record su mem strings rc len data pos st with
               | Err _ => r_countries st
               | Ok (st, pos) => countries_left f su mem strings pos st
               end
      end
  end.

(** book.py l.721-740, with update_pos true. *)
Definition get_sheet (bk : obook) (sh_number : Z) : obook * res loaded :=
  if ob_released bk then (bk, Err XLRDError)
  else
    let g := ob_globals bk in
    let mem := ob_mem bk in
    match py_index (b_sheets g) sh_number with
    | None => (bk, Err IndexError)
    | Some (name, pos) =>
        match getbof mem pos 0x10 with
        | Err e => (bk, Err e)
        | Ok (_, pos) =>
            match read_sheet g mem pos (ob_countries bk) with
            | Err e =>
                let c := countries_left (S (length mem)) (sheet_setup g) mem (b_strings g) pos
                           (mkreading new_grid (ob_countries bk) None false) in
                (mkobook mem g c (ob_list bk) (ob_released bk) (S (ob_made bk)), Err e)
            | Ok (sh, c) =>
                let x := mkloaded (ob_made bk) sh_number name sh in
                match py_put (ob_list bk) sh_number (Some x) with
                | None => (mkobook mem g c (ob_list bk) (ob_released bk) (S (ob_made bk)), Err IndexError)
                | Some l => (mkobook mem g c l (ob_released bk) (S (ob_made bk)), Ok x)
                end
            end
        end
    end.

(** book.py l.463-468: a Sheet object is true, as it has no __len__. *)
Definition sheet_by_index (bk : obook) (sheetx : Z) : obook * res loaded :=
  match py_index (ob_list bk) sheetx with
  | None => (bk, Err IndexError)
  | Some (Some x) => (bk, Ok x)
  | Some None => get_sheet bk sheetx
  end.

(** The loop of get_sheets, book.py l.742-747. *)
Fixpoint get_all (bk : obook) (l : list Z) : obook * res unit :=
  match l with
  | [] => (bk, Ok tt)
  | i :: l => match get_sheet bk i with
              | (bk, Err e) => (bk, Err e)
              | (bk, Ok _) => get_all bk l
              end
  end.

(** The loop of sheets, book.py l.458-460. *)
Fixpoint load_missing (bk : obook) (l : list Z) : obook * res unit :=
  match l with
  | [] => (bk, Ok tt)
  | i :: l => match py_index (ob_list bk) i with
              | None => (bk, Err IndexError)
              | Some (Some _) => load_missing bk l
              | Some None => match get_sheet bk i with
                             | (bk, Err e) => (bk, Err e)
                             | (bk, Ok _) => load_missing bk l
                             end
              end
  end.

(** nsheets, book.py l.123: the length of _sheet_list never changes. *)
Definition nsheets (bk : obook) : Z := Z.of_nat (length (ob_list bk)).

(** book.py l.452-461. *)
Definition sheets (bk : obook) : obook * res (list (option loaded)) :=
  match load_missing bk (zrange 0 (nsheets bk)) with
  | (bk, Err e) => (bk, Err e)
  | (bk, Ok _) => (bk, Ok (ob_list bk))
  end.

(** The loop of __iter__, book.py l.475-476. *)
Fixpoint iter_loop (bk : obook) (l : list Z) : obook * res (list loaded) :=
  match l with
  | [] => (bk, Ok [])
  | i :: l => match sheet_by_index bk i with
              | (bk, Err e) => (bk, Err e)
              | (bk, Ok x) => match iter_loop bk l with
                              | (bk, Err e) => (bk, Err e)
                              | (bk, Ok xs) => (bk, Ok (x :: xs))
                              end
              end
  end.

(** list(book), book.py l.470-476. *)
Definition iter (bk : obook) : obook * res (list loaded) := iter_loop bk (zrange 0 (nsheets bk)).

(** The index of a sheet that may be given by name, book.py l.483-486, 495-498,
    516-522, 531-537. *)
Definition key_index (bk : obook) (key : Z + str) : res Z :=
  match key with
  | inl i => Ok i
  | inr name => match name_index name (map fst (b_sheets (ob_globals bk))) with
                | Some i => Ok (Z.of_nat i)
                | None => Err XLRDError
                end
  end.

(** __getitem__, book.py l.489-498, and with it sheet_by_name, l.478-487. *)
Definition item (bk : obook) (key : Z + str) : obook * res loaded :=
  match key_index bk key with
  | Err e => (bk, Err e)
  | Ok i => sheet_by_index bk i
  end.

(** book.py l.509-523. *)
Definition sheet_loaded (bk : obook) (key : Z + str) : res bool :=
  do i <- key_index bk key;
  match py_index (ob_list bk) i with
  | None => Err IndexError
  | Some (Some _) => Ok true
  | Some None => Ok false
  end.

(** book.py l.525-538. *)
Definition unload_sheet (bk : obook) (key : Z + str) : obook * res unit :=
  match key_index bk key with
  | Err e => (bk, Err e)
  | Ok i => match py_put (ob_list bk) i None with
            | None => (bk, Err IndexError)
            | Some l => (mkobook (ob_mem bk) (ob_globals bk) (ob_countries bk) l (ob_released bk) (ob_made bk), Ok tt)
            end
  end.

(** book.py l.540-563; that mem and the shared strings are None from then on
    never shows, as get_sheet looks at _resources_released first. *)
Definition release_resources (bk : obook) : obook :=
  mkobook (ob_mem bk) (ob_globals bk) (ob_countries bk) (ob_list bk) true (ob_made bk).

(** open_workbook_xls, book.py l.70-143, of a BIFF8 file. *)
Definition open_book (file : str) (on_demand : bool) : res obook :=
  match file with
  | [] => Err XLRDError
  | _ =>
      do (mem, base) <- load file;
      do (version, pos) <- getbof mem base 5;
      if version =? 0 then Err XLRDError
      else if negb (version =? 80) then Err NotModelled
      else
        do b <- parse_globals (S (length mem)) mem base pos new_globals;
        let bk := mkobook mem b (b_countries b) (map (fun _ => None) (b_sheets b)) false 0 in
        if on_demand then Ok bk
        else match get_all bk (zrange 0 (Z.of_nat (length (b_sheets b)))) with
             | (_, Err e) => Err e
             | (bk, Ok _) => Ok (release_resources bk)
             end
  end.

(** What can be called: book[key], sheet_by_index, sheet_by_name, sheets(),
    list(book), sheet_loaded, unload_sheet, release_resources (or the end of a
    with statement, l.568-570), sheet_names, nsheets; book.py l.452-570. *)
Inductive call :=
| CItem (key : Z + str) | CByIndex (i : Z) | CByName (name : str) | CSheets | CIter
| CLoaded (key : Z + str) | CUnload (key : Z + str) | CRelease | CNames | CCount.

(** What a call gives, book.py l.452-570. *)
Inductive answer :=
| ASheet (x : loaded) | AList (l : list (option loaded)) | AIter (l : list loaded) | ABool (b : bool) | ANone
| ANames (l : list str) | ANum (n : Z).

(** The result of a call as an answer, book.py l.452-570. *)
Definition to_answer {A} (f : A -> answer) (p : obook * res A) : obook * res answer :=
  (fst p, do x <- snd p; Ok (f x)).

(** One call, book.py l.452-570. *)
Definition respond (bk : obook) (c : call) : obook * res answer :=
  match c with
  | CItem key => to_answer ASheet (item bk key)
  | CByIndex i => to_answer ASheet (sheet_by_index bk i)
  | CByName name => to_answer ASheet (item bk (inr name))
  | CSheets => to_answer AList (sheets bk)
  | CIter => to_answer AIter (iter bk)
  | CLoaded key => (bk, do b <- sheet_loaded bk key; Ok (ABool b))
  | CUnload key => to_answer (fun _ => ANone) (unload_sheet bk key)
  | CRelease => (release_resources bk, Ok ANone)
  | CNames => (bk, Ok (ANames (map fst (b_sheets (ob_globals bk)))))
  | CCount => (bk, Ok (ANum (nsheets bk)))
  end.

(** One call after another, whatever is raised, book.py l.452-570. *)
Fixpoint run (bk : obook) (l : list call) : obook * list (res answer) :=
  match l with
  | [] => (bk, [])
  | c :: l => let (bk, r) := respond bk c in let (bk, rs) := run bk l in (bk, r :: rs)
  end.
