{"claims": [
{"property": "C01", "status": "proved", "theorems": ["C01_iteration", "C01_indices"], "note": ""},
{"property": "C02", "status": "proved", "theorems": ["C02_fresh_layout"], "note": ""},
{"property": "C03", "status": "proved", "theorems": ["C03_from_blob"], "note": ""},
{"property": "C04", "status": "proved", "theorems": ["C04_zeros", "C04_ones", "C04_full_int", "C04_full_double", "C04_eye", "C04_like"], "note": ""},
{"property": "C05", "status": "proved", "theorems": ["C05_broadcast_shape", "C05_broadcast_shape_cmp"], "note": ""},
{"property": "C06", "status": "partial", "theorems": ["C06_reject_partial", "C06_reject_cmp_partial", "C06_refused", "C06_throws", "C06_throws_cmp", "C06_empty", "C06_empty_cmp", "C06_refuted"], "note": "Proved for shapes without zero-sized dimensions; false with them (C06_refuted). Which pairs are accepted is said exactly, for all shapes (C06_refused, C06_throws, C06_empty)."},
{"property": "C07", "status": "proved", "theorems": ["C07_add"], "note": "The float format is a parameter; f_commutative_ieee discharges the hypothesis."},
{"property": "C08", "status": "proved", "theorems": ["C08_sub"], "note": ""},
{"property": "C09", "status": "proved", "theorems": ["C09_mul"], "note": ""},
{"property": "C10", "status": "proved", "theorems": ["C10_div"], "note": ""},
{"property": "C11", "status": "proved", "theorems": ["C11_commute", "f_commutative_ieee", "f_commutative_exact"], "note": ""},
{"property": "C12", "status": "proved", "theorems": ["C12_lattice", "C12_promotion"], "note": ""},
{"property": "C13", "status": "partial", "theorems": ["C13_neg_partial", "C13_float", "C13_dtype_refuted", "C13_zero_refuted"], "note": "Shape and integer values hold; the code turns i8/i16 into i32 and gives +0 for -(+0.0)."},
{"property": "C14", "status": "proved", "theorems": ["C14_cmp", "C14_laws"], "note": ""},
{"property": "C15", "status": "proved", "theorems": ["C15_all", "C15_eq_all"], "note": ""},
{"property": "C16", "status": "partial", "theorems": ["C16_bytes_partial", "C16_outcome", "C16_low", "C16_wide", "C16_refuted"], "note": "False: all() reads one byte at an unscaled address; C16_outcome says what it does on every type."},
{"property": "C17", "status": "partial", "theorems": ["C17_slice_partial", "C17_fits", "C17_overflow", "C17_refuted"], "note": "Every legal subscript text selects what Python selects, as a view, when the products of steps and strides are representable; otherwise (a step near 2^63) it is undefined behaviour (C17_overflow)."},
{"property": "C18", "status": "partial", "theorems": ["C18_too_many", "C18_bad_item_partial", "C18_outcome", "C18_items", "C18_reading", "C18_refuted"], "note": "Bad items throw except in an empty dimension and after a start past the end, where the code accepts anything; C18_outcome says what happens on every text."},
{"property": "C19", "status": "proved", "theorems": ["C19_transpose", "C19_twice", "C19_reject"], "note": ""},
{"property": "C20", "status": "partial", "theorems": ["C20_reshape_partial", "C20_reshape_as_partial", "C20_reject", "C20_scalar", "C20_scalar_as", "C20_refuted"], "note": "A tracked 0-dimensional tensor reshaped to another shape is undefined behaviour (C20_scalar: always)."},
{"property": "C21", "status": "partial", "theorems": ["C21_reject_partial", "C21_throws", "C21_refuses", "C21_divides", "C21_refuted"], "note": "Throws for every illegal vector with entries from -1 up whose product does not wrap and is not zero beside a -1; C21_throws says exactly which vectors throw, for any entries."},
{"property": "C22", "status": "proved", "theorems": ["C22_copy"], "note": ""},
{"property": "C23", "status": "proved", "theorems": ["C23_detach"], "note": ""},
{"property": "C24", "status": "proved", "theorems": ["C24_sound", "C24_fresh", "C24_complete"], "note": ""},
{"property": "C25", "status": "partial", "theorems": ["C25_views_partial", "C25_refuted"], "note": "Chains of any length with any other calls in between; the sizes given to reshape are at least -1 with a product that does not wrap, and the first tensor's byte size does not wrap. False otherwise (C25_refuted)."},
{"property": "C26", "status": "proved", "theorems": ["C26_sum"], "note": ""},
{"property": "C27", "status": "proved", "theorems": ["C27_mean"], "note": ""},
{"property": "C28", "status": "proved", "theorems": ["C28_max", "C28_min", "C28_ordered_int", "C28_ordered_ieee", "C28_ordered_exact"], "note": ""},
{"property": "C29", "status": "partial", "theorems": ["C29_max_partial", "C29_min_partial", "C29_refuted"], "note": "False: the first cell of the buffer competes, in the view or not; the partial theorems say exactly when that matters."},
{"property": "C30", "status": "proved", "theorems": ["C30_abs"], "note": ""},
{"property": "C31", "status": "partial", "theorems": ["C31_outside", "C30_abs", "C31_refuted"], "note": "False whenever positions reach beyond the number of elements (C31_outside); otherwise C30."},
{"property": "C32", "status": "proved", "theorems": ["C32_type", "C32_same", "C32_reject", "C32_roundtrip", "C32_narrow"], "note": ""},
{"property": "C33", "status": "proved", "theorems": ["C33_cat", "C33_reject"], "note": ""},
{"property": "C34", "status": "proved", "theorems": ["C34_text", "C34_injective", "C34_float", "C34_close"], "note": "Buffers of fewer than 2^63 bytes."},
{"property": "C35", "status": "partial", "theorems": ["C35_rectangular", "C35_ragged_partial", "C35_empty", "C35_outcome", "C35_refuted"], "note": "Refuted for a list of empty lists, whose leaf type is never assigned; C35_outcome says what every nesting does."},
{"property": "C36", "status": "partial", "theorems": ["C36_throws", "C36_refuted"], "note": "False: always throws."},
{"property": "C37", "status": "partial", "theorems": ["C37_reject", "C37_f32_partial", "C37_like", "C37_f64", "C37_refuted"], "note": "Holds for integers and f32; at f64 every non-empty request writes out of bounds (C37_f64)."},
{"property": "C38", "status": "proved", "theorems": ["C38_unchanged", "C38_any_state"], "note": ""},
{"property": "C39", "status": "proved", "theorems": ["C39_elementwise", "C39_self", "C39_tracked"], "note": ""},
{"property": "C40", "status": "proved", "theorems": ["C40_reduces", "C40_integer_sum"], "note": ""},
{"property": "C41", "status": "partial", "theorems": ["C41_partial", "C41_throws", "C41_refuses", "C56_pass", "C41_refuted"], "note": "Holds for operands that broadcast; otherwise partial writes before the throw. C56_pass says which."},
{"property": "C42", "status": "proved", "theorems": ["C42_floating", "C42_reject", "C42_propagates"], "note": ""},
{"property": "C43", "status": "proved", "theorems": ["C43_backward_rejects"], "note": "Element counts below 2^64; numel() wraps above (C55)."},
{"property": "C44", "status": "proved", "theorems": ["C44_terminates", "C44_order", "C44_untraversed"], "note": ""},
{"property": "C45", "status": "partial", "theorems": ["C45_gradient_partial", "C45_limit_partial", "C45_slope_unique", "C45_direction_partial", "C45_others_partial"], "note": "For programs whose calls satisfy Spec/Program.v (may_call, may_backward), in exact arithmetic; the excluded calls are where the statement is false (C48-C52)."},
{"property": "C46", "status": "partial", "theorems": ["C46_zero_grad_partial", "C46_no_grad_partial", "C46_accumulate_partial", "C46_clear_partial"], "note": "Accumulation for the programs of C45 and graphs sharing no intermediate, in exact arithmetic."},
{"property": "C47", "status": "proved", "theorems": ["C47_retain"], "note": ""},
{"property": "C48", "status": "partial", "theorems": ["C48_again_partial", "C48_second_partial", "C48_values_partial", "C48_refuted"], "note": "False when the root has an intermediate below it: the accumulation counters are not reset, and a second pass stops at the root (C48_second_partial). Two passes from a root whose operands are leaves do add the derivative twice. In exact arithmetic C48_values_partial gives what a pass adds to the leaves when earlier ones have gone through some intermediates: the derivative with the nodes below a passed intermediate held fast."},
{"property": "C49", "status": "partial", "theorems": ["C49_silent_partial", "C49_means_partial", "C49_refuted"], "note": "False: without means below the view no leaf's gradient changes, whatever the graph; with means it changes by their rates only."},
{"property": "C50", "status": "partial", "theorems": ["C50_error_partial", "C50_unit_partial", "C50_refuted"], "note": "False: the upstream gradient is ignored. In exact arithmetic the error is given in full, and is zero if the root depends on every mean with derivative 1."},
{"property": "C51", "status": "partial", "theorems": ["C51_numerator_partial", "C51_denominator_partial", "C51_constant_partial", "C51_rank_partial", "C51_wide_partial", "C51_refuted"], "note": "Proved for two tracked operands, the denominator not broadcast, at leaves that only this quotient uses; C45 covers the others. False for constants (null dereference; no pass that reaches such a quotient succeeds, C51_constant_partial) and broadcast denominators (out of bounds, or a runtime_error when its rank is lower: no pass that reaches such a quotient succeeds, C51_rank_partial, C51_wide_partial)."},
{"property": "C52", "status": "partial", "theorems": ["C52_max_partial", "C52_min_partial", "C52_gradient_partial", "C52_refuted"], "note": "Holds when some element beats the first cell of the buffer; otherwise the call throws. The gradient part is about leaves that only this call uses; C45 covers the others."},
{"property": "C53", "status": "partial", "theorems": ["C53_cut_partial", "C53_kept_partial", "C53_values_partial", "C53_refuted"], "note": "False: an intermediate with a cut consumer never becomes ready, so paths beside the cut are lost too. Proved instead: which leaves get a gradient, exactly, in graphs no backward has walked, and in exact arithmetic that they get the derivative with the nodes below a cut held fast (C53_values_partial)."},
{"property": "C54", "status": "partial", "theorems": ["C54_safe_partial", "C54_needed", "C54_refuted"], "note": "For histories of careful calls (Spec/Safe.v); most demands are shown to be needed (C54_needed), and some are not documented preconditions, so the property as stated is false (C54_refuted)."},
{"property": "C55", "status": "partial", "theorems": ["C55_throws_partial", "C55_wraps", "C55_refuted"], "note": "Throws unless the byte count modulo 2^64 can be allocated; then the buffer has that size (C55_wraps)."},
{"property": "C56", "status": "partial", "theorems": ["C56_partial", "C56_pass", "C56_refuted"], "note": "Holds when no element is overwritten before it is read; otherwise later reads see earlier writes. C56_pass gives the result for any operands."},
{"property": "C57", "status": "partial", "theorems": ["C57_leaf_partial", "C57_outside", "C57_refuted"], "note": "Holds exactly for tensors whose elements lie among the first cells of the buffer; for all others backward() goes out of bounds (C57_outside)."},
{"property": "C58", "status": "proved", "theorems": ["C58_backward_keeps"], "note": ""},
{"property": "C59", "status": "proved", "theorems": ["C59_terminates"], "note": ""},
{"property": "C60", "status": "proved", "theorems": ["C60_step", "C60_update"], "note": "The programs of Spec/Program.v: those of C45, which may also add in place to tensors that no held graph was computed from."},
{"property": "C61", "status": "partial", "theorems": ["C61_retained_partial", "C61_view_partial", "C61_refuted"], "note": "For the programs of C45 and intermediates that are not views; the gradient of a view shares the buffer of its base's gradient and also receives what flows to the base (C61_refuted). C61_view_partial says exactly what a retained view's gradient holds: the derivative with respect to the elements of its base in the same cells, added to the base's old gradient if the base is a leaf, whether or not the base retains its gradient."},
{"property": "C62", "status": "proved", "theorems": ["C62_no_cycles", "C62_collected"], "note": ""},
{"property": "C63", "status": "proved", "theorems": ["C63_call", "C63_freeing"], "note": ""},
{"property": "C64", "status": "proved", "theorems": ["C64_agree", "C64_gradient", "C64_kept", "C64_converted"], "note": ""},
{"property": "C65", "status": "proved", "theorems": ["C65_flags", "C65_unretained"], "note": ""},
{"property": "C66", "status": "proved", "theorems": ["C66_pass"], "note": ""},
{"property": "C67", "status": "proved", "theorems": ["C67_arithmetic", "C67_convert", "C67_exact", "C67_compare", "C67_valid", "C67_elements", "C67_sum", "C67_mean"], "note": ""},
{"property": "C68", "status": "proved", "theorems": ["C68_gradient_shape"], "note": ""},
{"property": "C69", "status": "proved", "theorems": ["C69_formula", "C69_rate"], "note": ""},
{"property": "C70", "status": "proved", "theorems": ["C70_answers", "C70_contiguous", "C70_null", "C70_null_cat"], "note": ""},
{"property": "C71", "status": "proved", "theorems": ["C71_release", "C71_lost", "C71_lost_both"], "note": ""},
{"property": "C72", "status": "proved", "theorems": ["C72_train"], "note": ""},
{"property": "C73", "status": "proved", "theorems": ["C73_form", "C73_read"], "note": ""},
{"property": "C74", "status": "proved", "theorems": ["C74_transpose", "C74_transpose_cmp", "C74_slice", "C74_slice_cmp", "C74_assoc", "C74_distrib", "C74_cancel", "C74_float_refuted", "C74_sum_reshape", "C74_sum_transpose", "C74_promote", "C74_promote_cmp", "C74_inplace", "C74_split"], "note": ""},
{"property": "C75", "status": "proved", "theorems": ["C75_denotes", "C75_same"], "note": ""},
{"property": "C76", "status": "proved", "theorems": ["C76_gradient"], "note": ""},
{"property": "C77", "status": "proved", "theorems": ["C77_step", "C77_rounds"], "note": ""},
{"property": "C78", "status": "proved", "theorems": ["C78_solution", "C78_best", "C78_converges", "C78_diverges"], "note": ""},
{"property": "C79", "status": "proved", "theorems": ["C79_accumulates", "C79_order"], "note": ""}
]}
