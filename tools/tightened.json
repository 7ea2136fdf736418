{
 "set_displacement|  if Qcltb d (Q2Qc 0) then Ok (mkArgs None (a_enl a) (a_pbc a))\n  else Ok": [
  "stored_arguments_are_the_last_ones"
 ],
 "py_int|Ok (Z.div (Qnum q) (Zpos (Qden q)))": [
  "stored_arguments_are_the_last_ones"
 ],
 "to_int_numpy|| VInt z => Ok [z; z; z]": [
  "single_number_enlargement_rejected"
 ],
 "set_coordinate||| Ascii.eqb a \"K\"": [
  "setters_store_the_value"
 ],
 "eval_phonon|Ok (rest ++ [modes_at (length n) D])": [
  "phonon_results_in_k_order"
 ],
 "point_group_name|[3; 1; 0; 2; 0; 0] => Some \"3\"": [
  "point_group_symbol",
  "point_groups_all_named"
 ],
 "plane|| [true; false; true] => Some (0, 1, 2)": [
  "plane_of_periodic_directions"
 ],
 "self_ops|[k]": [
  "site_operations_fix_the_atom"
 ],
 "round6|x": [
  "reported_translations"
 ],
 "kb|(139 / 100)": [
  "thermal_constants"
 ],
 "cells2|[i * n2 + j; i * n2 + (j + 1) mod n2; at_ 1 1]": [
  "triangles_tile_the_cell"
 ],
 "vasp_coords|let! cart := Ok m in": [
  "vasp_file_meaning"
 ],
 "fd_loop|| Err e => fd_loop nrow ncol d (S idx) fwd m r\n          | Ok forces": [
  "unreadable_force_file_rejected"
 ],
 "convert|Ok (VStr v)": [
  "option_assignment_meaning"
 ],
 "range3|(b - a) / c": [
  "thermal_temperatures"
 ],
 "energy_limit|if true then": [
  "energy_window",
  "analysis_arguments_refused"
 ],
 "get_dos_args|Ok (Some l)": [
  "dos_arguments",
  "analysis_arguments_refused"
 ],
 "weight_table|Some (48867, 3)": [
  "standard_weight_of_every_element"
 ],
 "eval_p|let w0 := po_w o in": [
  "evaluation_keeps_no_old_result"
 ],
 "new_post|mkProc a u s s u a (Some (mkPost rm_empty fc [] [] []))": [
  "new_process_holds_its_objects"
 ],
 "set_user_arg_p|let! s := get_cell h1 (p_super q) in Ok tt) with": [
  "post_arguments_are_checked",
  "mismatched_post_arguments_raise"
 ],
 "is_arg|Some (OArg true _) => true": [
  "right_class_assignment"
 ],
 "xyz_of|Some l => rev l": [
  "dos_files_of_a_run",
  "band_files_of_an_analysis"
 ],
 "dos_part|(toR (da_sigma da)) (S (Z.to_nat (da_num da)))": [
  "dos_files_of_a_run"
 ],
 "label_list|VStr s => split_on \",\" s": [
  "band_files_of_an_analysis"
 ],
 "rintR|else if Z.even n then (n + 1)%Z else n": [
  "printed_ties_to_even"
 ]
}