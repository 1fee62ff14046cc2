#!/usr/bin/env python3
"""Write MANIFEST.json. One line per property: id, status, theorems, note."""
import json, os
C = []
def claim(p, status, theorems, note=""):
    C.append({"property": p, "status": status, "theorems": theorems.split(), "note": note})

claim("C01", "proved", "C01_iteration C01_indices")
claim("C02", "proved", "C02_fresh_layout")
claim("C03", "proved", "C03_from_blob")
claim("C04", "proved", "C04_zeros C04_ones C04_full_int C04_full_double C04_eye C04_like")
claim("C05", "proved", "C05_broadcast_shape C05_broadcast_shape_cmp")
claim("C06", "partial", "C06_reject_partial C06_reject_cmp_partial C06_refused C06_throws C06_throws_cmp C06_empty C06_empty_cmp C06_refuted",
      "Proved for shapes without zero-sized dimensions; false with them (C06_refuted). Which pairs are accepted is said exactly, for all shapes (C06_refused, C06_throws, C06_empty).")
claim("C07", "proved", "C07_add", "The float format is a parameter; f_commutative_ieee discharges the hypothesis.")
claim("C08", "proved", "C08_sub")
claim("C09", "proved", "C09_mul")
claim("C10", "proved", "C10_div")
claim("C11", "proved", "C11_commute f_commutative_ieee f_commutative_exact")
claim("C12", "proved", "C12_lattice C12_promotion")
claim("C13", "partial", "C13_neg_partial C13_float C13_dtype_refuted C13_zero_refuted",
      "Shape and integer values hold; the code turns i8/i16 into i32 and gives +0 for -(+0.0).")
claim("C14", "proved", "C14_cmp C14_laws")
claim("C15", "proved", "C15_all C15_eq_all")
claim("C16", "partial", "C16_bytes_partial C16_outcome C16_low C16_wide C16_refuted", "False: all() reads one byte at an unscaled address; C16_outcome says what it does on every type.")
claim("C22", "proved", "C22_copy")
claim("C26", "proved", "C26_sum")
claim("C27", "proved", "C27_mean")
claim("C28", "proved", "C28_max C28_min C28_ordered_int C28_ordered_ieee C28_ordered_exact")
claim("C30", "proved", "C30_abs")
claim("C32", "proved", "C32_type C32_same C32_reject C32_roundtrip C32_narrow")
claim("C33", "proved", "C33_cat C33_reject")
claim("C38", "proved", "C38_unchanged C38_any_state")
claim("C36", "partial", "C36_throws C36_refuted", "False: always throws.")
claim("C29", "partial", "C29_max_partial C29_min_partial C29_refuted", "False: the first cell of the buffer competes, in the view or not; the partial theorems say exactly when that matters.")
claim("C31", "partial", "C31_outside C30_abs C31_refuted", "False whenever positions reach beyond the number of elements (C31_outside); otherwise C30.")
claim("C37", "partial", "C37_reject C37_f32_partial C37_like C37_f64 C37_refuted", "Holds for integers and f32; at f64 every non-empty request writes out of bounds (C37_f64).")
claim("C41", "partial", "C41_partial C41_throws C41_refuses C56_pass C41_refuted", "Holds for operands that broadcast; otherwise partial writes before the throw. C56_pass says which.")
claim("C52", "partial", "C52_max_partial C52_min_partial C52_gradient_partial C52_refuted", "Holds when some element beats the first cell of the buffer; otherwise the call throws. The gradient part is about leaves that only this call uses; C45 covers the others.")
claim("C51", "partial", "C51_numerator_partial C51_denominator_partial C51_constant_partial C51_rank_partial C51_wide_partial C51_refuted", "Proved for two tracked operands, the denominator not broadcast, at leaves that only this quotient uses; C45 covers the others. False for constants (null dereference; no pass that reaches such a quotient succeeds, C51_constant_partial) and broadcast denominators (out of bounds, or a runtime_error when its rank is lower: no pass that reaches such a quotient succeeds, C51_rank_partial, C51_wide_partial).")
claim("C57", "partial", "C57_leaf_partial C57_outside C57_refuted", "Holds exactly for tensors whose elements lie among the first cells of the buffer; for all others backward() goes out of bounds (C57_outside).")
claim("C55", "partial", "C55_throws_partial C55_wraps C55_refuted", "Throws unless the byte count modulo 2^64 can be allocated; then the buffer has that size (C55_wraps).")
claim("C56", "partial", "C56_partial C56_pass C56_refuted", "Holds when no element is overwritten before it is read; otherwise later reads see earlier writes. C56_pass gives the result for any operands.")
claim("C19", "proved", "C19_transpose C19_twice C19_reject")
claim("C23", "proved", "C23_detach")
claim("C24", "proved", "C24_sound C24_fresh C24_complete")
claim("C42", "proved", "C42_floating C42_reject C42_propagates")
claim("C43", "proved", "C43_backward_rejects", "Element counts below 2^64; numel() wraps above (C55).")
claim("C58", "proved", "C58_backward_keeps")

claim("C17","partial","C17_slice_partial C17_fits C17_overflow C17_refuted","Every legal subscript text selects what Python selects, as a view, when the products of steps and strides are representable; otherwise (a step near 2^63) it is undefined behaviour (C17_overflow).")
claim("C18","partial","C18_too_many C18_bad_item_partial C18_outcome C18_items C18_reading C18_refuted","Bad items throw except in an empty dimension and after a start past the end, where the code accepts anything; C18_outcome says what happens on every text.")
claim("C39","proved","C39_elementwise C39_self C39_tracked")
claim("C40","proved","C40_reduces C40_integer_sum")
claim("C20","partial","C20_reshape_partial C20_reshape_as_partial C20_reject C20_scalar C20_scalar_as C20_refuted","A tracked 0-dimensional tensor reshaped to another shape is undefined behaviour (C20_scalar: always).")
claim("C21","partial","C21_reject_partial C21_throws C21_refuses C21_divides C21_refuted","Throws for every illegal vector with entries from -1 up whose product does not wrap and is not zero beside a -1; C21_throws says exactly which vectors throw, for any entries.")
claim("C34", "proved", "C34_text C34_injective C34_float C34_close", "Buffers of fewer than 2^63 bytes.")
claim("C35", "partial", "C35_rectangular C35_ragged_partial C35_empty C35_outcome C35_refuted",
      "Refuted for a list of empty lists, whose leaf type is never assigned; C35_outcome says what every nesting does.")

claim("C25", "partial", "C25_views_partial C25_refuted",
      "Chains of any length with any other calls in between; the sizes given to reshape are at least -1 with a product that does not wrap, and the first tensor's byte size does not wrap. False otherwise (C25_refuted).")
claim("C59", "proved", "C59_terminates")
claim("C44", "proved", "C44_terminates C44_order C44_untraversed")
claim("C47", "proved", "C47_retain")
claim("C45", "partial", "C45_gradient_partial C45_limit_partial C45_slope_unique C45_direction_partial C45_others_partial",
      "For programs whose calls satisfy Spec/Program.v (may_call, may_backward), in exact arithmetic; the excluded calls are where the statement is false (C48-C52).")
claim("C46", "partial", "C46_zero_grad_partial C46_no_grad_partial C46_accumulate_partial C46_clear_partial",
      "Accumulation for the programs of C45 and graphs sharing no intermediate, in exact arithmetic.")
claim("C60", "proved", "C60_step C60_update", "The programs of Spec/Program.v: those of C45, which may also add in place to tensors that no held graph was computed from.")
claim("C61", "partial", "C61_retained_partial C61_view_partial C61_refuted",
      "For the programs of C45 and intermediates that are not views; the gradient of a view shares the buffer of its base's gradient and also receives what flows to the base (C61_refuted). C61_view_partial says exactly what a retained view's gradient holds: the derivative with respect to the elements of its base in the same cells, added to the base's old gradient if the base is a leaf, whether or not the base retains its gradient.")
claim("C50", "partial", "C50_error_partial C50_unit_partial C50_refuted",
      "False: the upstream gradient is ignored. In exact arithmetic the error is given in full, and is zero if the root depends on every mean with derivative 1.")
claim("C49", "partial", "C49_silent_partial C49_means_partial C49_refuted",
      "False: without means below the view no leaf's gradient changes, whatever the graph; with means it changes by their rates only.")
claim("C62", "proved", "C62_no_cycles C62_collected")
claim("C63", "proved", "C63_call C63_freeing")
claim("C64", "proved", "C64_agree C64_gradient C64_kept C64_converted")
claim("C65", "proved", "C65_flags C65_unretained")
claim("C66", "proved", "C66_pass")
claim("C67", "proved", "C67_arithmetic C67_convert C67_exact C67_compare C67_valid C67_elements C67_sum C67_mean")
claim("C68", "proved", "C68_gradient_shape")
claim("C69", "proved", "C69_formula C69_rate")
claim("C72", "proved", "C72_train")
claim("C73", "proved", "C73_form C73_read")
claim("C74", "proved", "C74_transpose C74_transpose_cmp C74_slice C74_slice_cmp C74_assoc C74_distrib C74_cancel C74_float_refuted C74_sum_reshape C74_sum_transpose C74_promote C74_promote_cmp C74_inplace C74_split")
claim("C75", "proved", "C75_denotes C75_same")
claim("C76", "proved", "C76_gradient")
claim("C77", "proved", "C77_step C77_rounds")
claim("C78", "proved", "C78_solution C78_best C78_converges C78_diverges")
claim("C79", "proved", "C79_accumulates C79_order")
claim("C70", "proved", "C70_answers C70_contiguous C70_null C70_null_cat")
claim("C71", "proved", "C71_release C71_lost C71_lost_both")
claim("C53", "partial", "C53_cut_partial C53_kept_partial C53_values_partial C53_refuted",
      "False: an intermediate with a cut consumer never becomes ready, so paths beside the cut are lost too. Proved instead: which leaves get a gradient, exactly, in graphs no backward has walked, and in exact arithmetic that they get the derivative with the nodes below a cut held fast (C53_values_partial).")
claim("C48", "partial", "C48_again_partial C48_second_partial C48_values_partial C48_refuted",
      "False when the root has an intermediate below it: the accumulation counters are not reset, and a second pass stops at the root (C48_second_partial). Two passes from a root whose operands are leaves do add the derivative twice. In exact arithmetic C48_values_partial gives what a pass adds to the leaves when earlier ones have gone through some intermediates: the derivative with the nodes below a passed intermediate held fast.")
claim("C54", "partial", "C54_safe_partial C54_needed C54_refuted",
      "For histories of careful calls (Spec/Safe.v); most demands are shown to be needed (C54_needed), and some are not documented preconditions, so the property as stated is false (C54_refuted).")
p = os.path.join(os.path.dirname(os.path.abspath(__file__)), "..", "MANIFEST.json")
done = {c["property"] for c in C}
for l in open(os.path.join(os.path.dirname(p), "properties.jsonl")):
    i = json.loads(l)["id"]
    if i not in done:
        claim(i, "partial", "", "Not proved yet.")
C.sort(key=lambda c: c["property"])
with open(p, "w") as f:
    f.write('{"claims": [\n' + ",\n".join(json.dumps(c) for c in C) + "\n]}\n")
