(** * How a sheet is shown: the property theorems *)

From Coq Require Import ZifyBool ZifyNat ZifyN QArith.
From Verif Require Import PyBase PyText PyFloat NumPy Dbf CompDoc ReadXl XlStruct XlSheet Biff CellAddr SheetView SpecView PyBaseFacts AddrThms ViewThms.
Open Scope nat_scope.
Open Scope Z_scope.
(** A WINDOW2 record: page break preview, 75 percent for it and 0 for the other view. *)
Definition window_record : str := [62; 2; 14; 0;  182; 14; 5; 0; 2; 0; 64; 0; 0; 0; 75; 0; 0; 0]%N.
(** An SCL record of 3/4, and one of 5/1. *)
Definition scl_record : str := [160; 0; 4; 0;  3; 0; 4; 0]%N.
Definition scl_bad : str := [160; 0; 4; 0;  5; 0; 1; 0]%N.
(** A sheet of these. *)
Definition view_mem : str := scl_bad ++ window_record ++ scl_record ++ [10; 0; 0; 0]%N.

(** The attributes are there exactly for the sheets that can be read; otherwise the exception is that of reading. *)
Theorem C87_same :
forall fuel su cmap mem strings pos st v,
  match read_loop fuel su mem strings pos st with
  | Ok _ => exists v', view_loop fuel su cmap mem strings pos st v = Ok v'
  | Err e => view_loop fuel su cmap mem strings pos st v = Err e
  end.
Proof. exact C87_same_proof. Qed.
Print Assumptions C87_same.

Example C87_same_ex : exists v, view_loop 9 (mksetup false false [] 65536 256) [] view_mem [] 0 (mkreading new_grid (0, 0) None false) new_view = Ok v /\
  cooked v = (75, 75) /\ v_row v = 5 /\ v_col v = 2 /\ v_options v = [false; true; true; false; true; true; false; true; false; true; true; true].
Proof. eexists. split; [reflexivity|]. repeat split; reflexivity. Qed.

(** Each of the twelve options is the bit of the last WINDOW2 record, or its default if there is none; the first row and column shown are
those of the last WINDOW2 record or 0. *)
Theorem C87_options :
forall fuel su cmap mem strings pos st v,
  view_loop fuel su cmap mem strings pos st new_view = Ok v ->
  exists l, reads su mem strings pos st l /\ length (v_options v) = 12%nat /\
    (forall k b, (k < 12)%nat -> (nth_error (v_options v) k = Some b <-> option_is l k b)) /\
    told is_window l (fun d x => x = word d 2) 0 (v_row v) /\ told is_window l (fun d x => x = word d 4) 0 (v_col v).
Proof. exact C87_options_proof. Qed.
Print Assumptions C87_options.

Example C87_options_ex : option_is [(574, [182; 14; 5; 0; 2; 0; 64; 0; 0; 0; 75; 0; 0; 0]%N); (160, [3; 0; 4; 0]%N)] 11 true /\
  option_is [(160, [3; 0; 4; 0]%N)] 11 false /\ option_is [] 1 true.
Proof.
  split; [|split; right; split; try reflexivity; repeat constructor; discriminate].
  left. eexists. split; [exists [], 574; eexists; split; [reflexivity|]; split; [reflexivity|repeat constructor; discriminate]|reflexivity].
Qed.

(** The factor of the view the sheet is shown in is that of the last SCL record, if from 10 to 400 percent, or else 100. The other one is the
cached one of the last long WINDOW2 record, if from 10 to 400; if it is not, the factor is that of the view shown, but 60 for
a page break preview not shown with 0 or nothing cached. *)
Theorem C87_zoom :
forall fuel su cmap mem strings pos st v,
  view_loop fuel su cmap mem strings pos st new_view = Ok v ->
  exists l a page normal, reads su mem strings pos st l /\ active l a /\ cached l 10 page /\ cached l 12 normal /\
    (option_is l 11 true -> (fit normal -> cooked v = (a, normal)) /\ (~ fit normal -> cooked v = (a, a))) /\
    (option_is l 11 false -> (page = 0 -> cooked v = (60, a)) /\ (fit page -> cooked v = (page, a)) /\
                             (page <> 0 -> ~ fit page -> cooked v = (a, a))).
Proof. exact C87_zoom_proof. Qed.
Print Assumptions C87_zoom.

Example C87_zoom_ex : percent 3 4 75 /\ percent 5 1 100 /\ percent 1 3 33 /\ percent 7 0 100 /\ cooked new_view = (60, 100) /\
  active [(160, [5; 0; 1; 0]%N); (160, [3; 0; 4; 0]%N)] 75.
Proof.
  unfold percent. split; [lia|]. split; [lia|]. split; [lia|]. split; [lia|]. split; [reflexivity|].
  left. exists [3; 0; 4; 0]%N. split; [exists [(160, [5; 0; 1; 0]%N)], 160, []; repeat split; constructor|]. left. unfold word, byte. simpl. lia.
Qed.

(** So both factors are always ones that Excel takes, whatever the file holds: from 10 to 400, never 0. *)
Theorem C87_fit :
forall b cmap mem pos countries v p n, view_of_sheet b cmap mem pos countries = Ok v -> cooked v = (p, n) -> fit p /\ fit n.
Proof. exact C87_fit_proof. Qed.
Print Assumptions C87_fit.

Example C87_fit_ex : cooked (mkview (v_options new_view) 0 0 64 65535 9 (Some 400)) = (400, 400) /\ fit 400 /\ ~ fit 0.
Proof. unfold fit. split; [reflexivity|]. lia. Qed.

(** The colour of the grid lines is that of the last WINDOW2 record: its index, if the record is long, or else the index of the nearest colour to the
three bytes it has; 64 if there is no record. *)
Theorem C87_grid :
forall fuel su cmap mem strings pos st v,
  view_loop fuel su cmap mem strings pos st new_view = Ok v ->
  exists l, reads su mem strings pos st l /\
    told is_window l (fun d x => (14 <= length d)%nat /\ x = word d 6 \/
                                 (length d < 14)%nat /\ x = nearest_colour_index cmap [byte d 6; byte d 7; byte d 8]) 64 (v_grid v).
Proof. exact C87_grid_proof. Qed.
Print Assumptions C87_grid.

Example C87_grid_ex : v_grid (see [(9, Some [255; 255; 255]); (10, Some [255; 0; 0])] new_view 574 10 [182; 14; 5; 0; 2; 0; 200; 0; 0; 0]%N) = 10 /\
  v_grid new_view = 64.
Proof. split; reflexivity. Qed.

