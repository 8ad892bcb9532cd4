(** * Sheets built cell by cell: the property theorems *)

From Coq Require Import ZifyBool ZifyNat ZifyN QArith.
From Verif Require Import PyBase PyBaseFacts PyFloat PyText NumPy SpecArray ArrayFacts SpecPack Pack XlDate ReadXl SpecXl XlProofs ReadXlThms XlSheet SpecXlSheet XlSheetProofs XlSheetThms.
Open Scope nat_scope.
From Coq Require Import Permutation.
Open Scope Z_scope.

(** After acceptable calls of put_cell in any order, merged ranges and the final
tidying, the sheet is rectangular, reaches one past the largest row and column
put or merged, and every cell shows the last call made for it: its value, its
type (given or looked up by format) and its format, or an empty cell. *)
Theorem C49_grid :
forall su l merged, su_ragged su = false -> Forall (good_put su) l -> Forall (good_range su) merged ->
  exists g, build su l merged = Ok g /\ rectangular (sheet_of g) /\
    g_nrows g = Z.max (height l) (range_height merged) /\
    g_ncols g = Z.max (width l) (range_width merged) /\
    forall r c, 0 <= r < g_nrows g -> 0 <= c < g_ncols g ->
      (exists v, grid_at (g_values g) r c = Ok v /\ shows_value l r c v) /\
      (exists t, grid_at (g_types g) r c = Ok t /\ shows_type su l r c t) /\
      (su_fmt su = true -> exists x, grid_at (g_xfs g) r c = Ok x /\ shows_xf l r c x).
Proof. exact C49_grid_proof. Qed.
Print Assumptions C49_grid.

(** Out of order, one cell overwritten by a number whose format is a date's,
    a merged range that reaches below the last row. *)
Definition demo_setup : setup := mksetup false true [(15, 3)] 65536 256.
Definition demo_puts : list put :=
  [mkput 1 1 (Some 2) (VInt 7) 0; mkput 0 3 (Some 1) (VStr (lit "a")) 2;
   mkput 1 1 None (VInt 8) 15; mkput 2 0 (Some 2) (VInt 9) 0].
Example C49_grid_ex : Forall (good_put demo_setup) demo_puts /\ Forall (good_range demo_setup) [(0, 4, 1, 2)] /\
  match build demo_setup demo_puts [(0, 4, 1, 2)] with
  | Ok g => g_nrows g = 4 /\ g_ncols g = 4 /\
            grid_at (g_values g) 1 1 = Ok (VInt 8) /\ grid_at (g_types g) 1 1 = Ok 3 /\
            grid_at (g_xfs g) 1 1 = Ok 15 /\ grid_at (g_values g) 3 3 = Ok (VStr [])
  | Err _ => False
  end.
Proof.
  split. { repeat constructor; cbn; try lia; [exists 2|exists 1|exists 3|exists 2]; constructor; reflexivity. }
  split. { repeat constructor; cbn; lia. }
  vm_compute. repeat split.
Qed.

(** When no cell is put twice, the order of the calls does not matter, with ragged
rows or without. *)
Theorem C49_order :
forall su l1 l2 merged, Forall (good_put su) l1 -> Forall (good_range su) merged ->
  one_call_each l1 -> Permutation l1 l2 ->
  exists g1 g2, build su l1 merged = Ok g1 /\ build su l2 merged = Ok g2 /\
    g_nrows g1 = g_nrows g2 /\ g_ncols g1 = g_ncols g2 /\
    g_types g1 = g_types g2 /\ g_values g1 = g_values g2 /\ (su_fmt su = true -> g_xfs g1 = g_xfs g2).
Proof. exact C49_order_proof. Qed.
Print Assumptions C49_order.

Example C49_order_ex : one_call_each (tl demo_puts) /\
  match build demo_setup (tl demo_puts) [], build demo_setup (rev (tl demo_puts)) [] with
  | Ok g1, Ok g2 => g_values g1 = g_values g2 /\ g_full g1 <> g_full g2 /\ g_nrows g1 = 3
  | _, _ => False
  end.
Proof.
  split; [|vm_compute; repeat split; discriminate]. unfold one_call_each. cbn.
  repeat constructor; cbn; intros H; repeat (destruct H as [H|H]; [discriminate H|]); exact H.
Qed.

(** With ragged rows the sheet has the same height and width, and every row ends at
the last cell put in it; the row of the lowest merged range, when nothing was
put there or below, has one empty cell. *)
Theorem C49_ragged :
forall su l merged, su_ragged su = true -> Forall (good_put su) l -> Forall (good_range su) merged ->
  exists g, build su l merged = Ok g /\
    g_nrows g = Z.max (height l) (range_height merged) /\
    g_ncols g = Z.max (width l) (range_width merged) /\
    Z.of_nat (length (g_values g)) = g_nrows g /\
    forall r, 0 <= r < g_nrows g ->
      let n := if (r =? range_height merged - 1) && (height l <=? r) then 1 else row_width l r in
      exists vs ts, nth_error (g_values g) (Z.to_nat r) = Some vs /\ nth_error (g_types g) (Z.to_nat r) = Some ts /\
        Z.of_nat (length vs) = n /\ Z.of_nat (length ts) = n /\
        forall c, 0 <= c < n ->
          (exists v, grid_at (g_values g) r c = Ok v /\ shows_value l r c v) /\
          (exists t, grid_at (g_types g) r c = Ok t /\ shows_type su l r c t) /\
          (su_fmt su = true -> exists x, grid_at (g_xfs g) r c = Ok x /\ shows_xf l r c x).
Proof. exact C49_ragged_proof. Qed.
Print Assumptions C49_ragged.

Example C49_ragged_ex :
  match build (mksetup true true [(15, 3)] 65536 256) demo_puts [(0, 5, 1, 2)] with
  | Ok g => map (@length _) (g_values g) = [4; 2; 1; 0; 1]%nat /\ g_ncols g = 4 /\
            grid_at (g_values g) 1 1 = Ok (VInt 8) /\ grid_at (g_values g) 1 2 = Err IndexError
  | Err _ => False
  end.
Proof. vm_compute. auto. Qed.

(** The first call beyond the limits of the format (AssertionError) or whose format
is unknown (KeyError) ends the reading, with ragged rows or without. *)
Theorem C49_refused :
forall su l p rest merged, Forall (good_put su) l -> 0 <= pt_row p -> 0 <= pt_col p ->
  ((forall t, ~ typed su p t) -> build su (l ++ p :: rest) merged = Err KeyError) /\
  ((exists t, typed su p t) -> ~ inside su p -> build su (l ++ p :: rest) merged = Err AssertionError).
Proof. exact C49_refused_proof. Qed.
Print Assumptions C49_refused.

Example C49_refused_ex : good_put demo_setup (mkput 0 0 (Some 2) (VInt 1) 0) /\
  (forall t, ~ typed demo_setup (mkput 1 1 None (VInt 1) 14) t) /\
  ~ inside demo_setup (mkput 0 256 (Some 2) (VInt 1) 0) /\
  build demo_setup [mkput 0 0 (Some 2) (VInt 1) 0; mkput 1 1 None (VInt 1) 14] [] = Err KeyError /\
  build demo_setup [mkput 0 255 (Some 2) (VInt 1) 0; mkput 0 256 (Some 2) (VInt 1) 0] [] = Err AssertionError.
Proof.
  split. { split; [unfold inside; cbn; lia|]. exists 2. constructor. }
  split. { intros t H. inversion H as [|? ? ? ? ? D]. vm_compute in D. discriminate D. }
  split. { unfold inside. cbn. lia. }
  vm_compute. auto.
Qed.

(** A pack read from a sheet built this way holds, column by column, the cells put
below row 0, typed as in C45, and is named by the cells put in row 0. *)
Theorem C49_pack :
forall su l merged g wb fname which cells f, su_ragged su = false ->
  Forall (good_put su) l -> Forall (good_range su) merged -> build su l merged = Ok g ->
  0 < g_nrows g -> 0 < g_ncols g -> chosen_sheet wb which (sheet_of g) ->
  (forall c, 0 <= c < g_ncols g ->
     shows_column su l c 1 (g_nrows g - 1) (cells c) /\ typed_column (bk_datemode wb) (cells c) (f c)) ->
  exists p, sheetpack wb fname which (OBool true) None None ONone = Ok p /\
    (forall c, 0 <= c < g_ncols g ->
       holds_column (p_data p) c (f c) /\
       exists v, dget c (p_names p) = Some v /\ shows_value l 0 c v) /\
    (forall c, ~ (0 <= c < g_ncols g) -> dget c (p_data p) = None /\ dget c (p_names p) = None).
Proof. exact C49_pack_proof. Qed.
Print Assumptions C49_pack.

(** Two columns, the cells put column by column from below; the date cell gets
    its type from format 15. *)
Example C49_pack_ex :
  match build demo_setup [mkput 2 1 (Some 2) (VFloat (float_of_Z 4)) 0; mkput 0 1 (Some 1) (VStr (lit "v")) 0;
                          mkput 1 0 None (VFloat (float_of_Z 43890)) 15; mkput 0 0 (Some 1) (VStr (lit "t")) 0] [] with
  | Ok g => match sheetpack (mkbook [lit "s"] [sheet_of g] 0) (lit "f.xls") (OInt 0) (OBool true) None None ONone with
            | Ok p => p_data p = [(0, mkarr KO [VDateTime 737484 0; VNone]);
                                  (1, mkarr Kf [VFloat fnan; VFloat (float_of_Z 4)])] /\
                      p_names p = [(0, VStr (lit "t")); (1, VStr (lit "v"))]
            | Err _ => False
            end
  | Err _ => False
  end.
Proof. vm_compute. auto. Qed.

(** A negative row is not refused without ragged rows: it counts from the end, and
the call overwrites the last row. (With ragged rows it is refused.) *)
Theorem C49_negative_refuted :
exists su l g, su_ragged su = false /\ Exists (fun p => pt_row p < 0) l /\ build su l [] = Ok g /\
  grid_at (g_values g) 1 0 = Ok (VInt 3) /\
  build (mksetup true (su_fmt su) (su_types su) (su_max_rows su) (su_max_cols su)) l [] = Err AssertionError.
Proof. exact C49_negative_refuted_proof. Qed.
Print Assumptions C49_negative_refuted.

