"""Regenerates MANIFEST.json (property -> theorem names)."""
import json
C = {}
def c(pid, status, ths, note=""):
    C[pid] = {"property": pid, "status": status, "theorems": ths.split(), "note": note}
c("C01","proved","accepted_arguments_well_formed")
c("C02","proved","canonical_arguments_accepted periodicity_token_meaning canonical_arguments_rejected canonical_bad_displacement_rejected")
c("C03","proved","arguments_forget_history object_view_agrees displacement_enlargement_order_irrelevant")
c("C04","proved","negative_displacement_not_rejected nonnegative_displacement_stored displacement_positive_refuted","actual behaviour proved; documented intent refuted")
c("C05","proved","setter_histories_keep_invariants raising_setter_changes_nothing atom_count_is_stable selection_stays_in_range setter_acceptance counts_and_selection_invariant_refuted")
c("C06","proved","selection_sorted_and_in_range")
c("C07","proved","direct_coordinates_roundtrip direct_coordinates_defining direct_coordinates_singular_rejected")
c("C08","proved","supercell_content supercell_copies_enumerated_once")
c("C09","proved","supercell_lattice_and_counts")
c("C10","proved","supercell_covers_crystal_once")
c("C11","proved","supercell_selection_correct")
c("C12","proved","bypassed_argument_check_raises nonpositive_enlargement_outcomes supercell_never_garbage_refuted")
c("C13","proved","displaced_files_without_symmetry built_supercell_is_ready")
c("C14","proved","displaced_files_with_symmetry built_supercell_is_ready")
c("C15","proved","displaced_names_distinct displaced_names_sort_numerically displaced_names_sort_refuted_beyond_9999")
c("C16","proved","supercell_left_displaced")
c("C56","proved","periodicity_before_enlargement_fails entry_order_matters_refuted")
exec(open(__file__.replace("manifest.py","claims_more.py")).read())
json.dump({"claims":[C[k] for k in sorted(C)]}, open("/verif/MANIFEST.json","w"), indent=1)
