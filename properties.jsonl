{"id": "C01", "title": "Whole-tensor operations visit each index exactly once", "statement": "An operation that walks a tensor performs its per-element action exactly once for every multi-index of the shape, in row-major order (last index fastest), performs it once for a 0-dimensional shape, not at all when some dimension is 0, and always finishes.", "quantifier": "every shape (any rank, any sizes), every per-element action", "why_tests_cant": "the walk is an odometer with a carry loop; an off-by-one shows only for particular ranks and sizes and no finite set of shapes covers all ranks", "anchors": ["include/INNC/utils/utils.hpp:for_each_sizevec"]}
{"id": "C02", "title": "Fresh tensors give every index its own in-bounds cell", "statement": "In a freshly created tensor of a given shape, element (i0,...,ik) is stored at the row-major linear position, distinct indices have distinct positions, and all positions are inside the allocated buffer.", "quantifier": "every shape whose byte size fits the address space, every dtype", "why_tests_cant": "quantifies over all shapes and all index pairs", "anchors": ["src/INNC/layouts.cpp:StridedLayout::StridedLayout,StridedLayout::cnt_from_index,Layout::numel", "src/INNC/tensorImpl.cpp:TensorImpl::create"]}
{"id": "C03", "title": "from_blob copies the buffer", "statement": "from_blob(data, sizes, dtype) yields a tensor whose element at each multi-index is the buffer element at the row-major position; no other tensor changes.", "quantifier": "every shape, dtype and buffer contents", "why_tests_cant": "unbounded shapes and contents", "anchors": ["src/INNC/tensorImpl.cpp:TensorImpl::from_blob"]}
{"id": "C04", "title": "zeros, ones, full, eye and the *_like forms", "statement": "zeros/ones/full(v) have the requested shape and dtype and every element equals 0, 1, or v converted to the dtype; eye(n,m) is 1 on the diagonal and 0 elsewhere; zeros_like/ones_like use the shape and dtype of their argument.", "quantifier": "every shape, dtype and fill value (for which the C++ conversion is defined)", "why_tests_cant": "unbounded shapes and values", "anchors": ["src/INNC/tensorImpl.cpp:zeros,ones,full,eye,zeros_like,ones_like", "include/INNC/ops.hpp:tensor_fill,tensor_eye"]}
{"id": "C05", "title": "Broadcast result shape", "statement": "For broadcast-compatible operand shapes (aligned at the last dimension, sizes equal or one of them 1) with no zero-sized dimension, a binary operator's result has exactly the NumPy broadcast shape, whichever operand comes first.", "quantifier": "every pair of compatible shapes of any ranks", "why_tests_cant": "ranges over all pairs of shapes", "anchors": ["src/INNC/utils/utils.cpp:broadcast_range", "include/INNC/utils/utils.hpp:apply_no_grad_binary_op"]}
{"id": "C06", "title": "Incompatible shapes are rejected", "statement": "Applying +, -, *, / or a comparison to tensors whose shapes are not broadcast-compatible throws std::runtime_error, and compatible shapes are accepted.", "quantifier": "every pair of shapes, including ones with zero-sized dimensions", "why_tests_cant": "the guard in the code is a tautology, so rejection depends on a different check being reached for every shape pair", "anchors": ["src/INNC/utils/utils.cpp:broadcast_range", "src/INNC/tensorImpl.cpp:TensorImpl::cnt_from_aug_index"]}
{"id": "C07", "title": "Elementwise addition", "statement": "a + b is a new tensor of the broadcast shape and promoted dtype whose element at each index is the C++ value of a[i] + b[i] (operands broadcast, usual arithmetic conversions, result converted to the promoted dtype); operands and all other tensors keep their contents. If some element computation is undefined in C++ (signed overflow, division by zero, unrepresentable conversion) the call is undefined, otherwise it succeeds.", "quantifier": "all shapes, all 36 dtype pairs, all element values, all strided views as operands", "why_tests_cant": "all shapes x dtypes x values x view layouts", "anchors": ["include/INNC/ops.hpp:tensor_add", "include/INNC/utils/utils.hpp:apply_no_grad_binary_op,apply_binary_operator", "src/INNC/tensorImpl.cpp:operator+"]}
{"id": "C08", "title": "Elementwise subtraction", "statement": "a - b is a new tensor of the broadcast shape and promoted dtype whose element at each index is the C++ value of a[i] - b[i] (operands broadcast, usual arithmetic conversions, result converted to the promoted dtype); operands and all other tensors keep their contents. If some element computation is undefined in C++ (signed overflow, division by zero, unrepresentable conversion) the call is undefined, otherwise it succeeds.", "quantifier": "all shapes, all 36 dtype pairs, all element values, all strided views as operands", "why_tests_cant": "all shapes x dtypes x values x view layouts", "anchors": ["include/INNC/ops.hpp:tensor_sub", "include/INNC/utils/utils.hpp:apply_no_grad_binary_op,apply_binary_operator", "src/INNC/tensorImpl.cpp:operator-"]}
{"id": "C09", "title": "Elementwise multiplication", "statement": "a * b is a new tensor of the broadcast shape and promoted dtype whose element at each index is the C++ value of a[i] * b[i] (operands broadcast, usual arithmetic conversions, result converted to the promoted dtype); operands and all other tensors keep their contents. If some element computation is undefined in C++ (signed overflow, division by zero, unrepresentable conversion) the call is undefined, otherwise it succeeds.", "quantifier": "all shapes, all 36 dtype pairs, all element values, all strided views as operands", "why_tests_cant": "all shapes x dtypes x values x view layouts", "anchors": ["include/INNC/ops.hpp:tensor_mul", "include/INNC/utils/utils.hpp:apply_no_grad_binary_op,apply_binary_operator", "src/INNC/tensorImpl.cpp:operator*"]}
{"id": "C10", "title": "Elementwise division", "statement": "a / b is a new tensor of the broadcast shape and promoted dtype whose element at each index is the C++ value of a[i] / b[i] (operands broadcast, usual arithmetic conversions, result converted to the promoted dtype); operands and all other tensors keep their contents. If some element computation is undefined in C++ (signed overflow, division by zero, unrepresentable conversion) the call is undefined, otherwise it succeeds.", "quantifier": "all shapes, all 36 dtype pairs, all element values, all strided views as operands", "why_tests_cant": "all shapes x dtypes x values x view layouts", "anchors": ["include/INNC/ops.hpp:tensor_div", "include/INNC/utils/utils.hpp:apply_no_grad_binary_op,apply_binary_operator", "src/INNC/tensorImpl.cpp:operator/"]}
{"id": "C11", "title": "+ and * commute, including mixed dtypes", "statement": "a + b and b + a (and a * b and b * a) have the same shape, dtype and elements, and are undefined for the same inputs, although the implementation swaps operands internally for mixed dtypes.", "quantifier": "all shapes, all dtype pairs, all values; for floating dtypes assuming only that IEEE addition and multiplication commute", "why_tests_cant": "36 dtype pairs times unbounded values", "anchors": ["include/INNC/utils/utils.hpp:apply_no_grad_binary_op"]}
{"id": "C12", "title": "Result dtype promotion is a consistent lattice", "statement": "The dtype of a binary operation's result is the join in i8<i16<i32<i64<f32<f64: commutative, associative, idempotent, floating iff some operand is; and it always equals the element type the kernel writes with, so no buffer is ever written at the wrong width.", "quantifier": "all dtype pairs and triples, all six-by-six dispatch entries", "why_tests_cant": "a wrong table entry corrupts memory only for that dtype pair", "anchors": ["include/INNC/types.hpp:larger_type,innc_common_t", "include/INNC/dispatcher.hpp"]}
{"id": "C13", "title": "Unary minus", "statement": "-a has a's shape and dtype and elements equal to the negation of a's elements.", "quantifier": "all tensors and dtypes", "why_tests_cant": "all dtypes and values", "anchors": ["src/INNC/tensorImpl.cpp:TensorImpl::operator-", "src/INNC/tensorImpl.cpp:TensorImpl::create"]}
{"id": "C14", "title": "Comparisons", "statement": "a<b, a<=b, a>b, a>=b, a==b, a!=b give an i8 tensor of the broadcast shape holding 1 where the C++ comparison of the (converted) elements holds and 0 elsewhere; a!=b is the complement of a==b, a>b equals b<a and, for integer dtypes, a>=b is the complement of a<b. They never fail on values.", "quantifier": "all shapes, dtype pairs and values", "why_tests_cant": "all shapes x dtype pairs x values", "anchors": ["include/INNC/ops.hpp:tensor_lt,tensor_gt,tensor_le,tensor_ge,tensor_eq,tensor_ne", "include/INNC/utils/utils.hpp:apply_cmp_op"]}
{"id": "C15", "title": "all() on comparison results", "statement": "For an i8 tensor holding only 0 and 1 (such as any comparison result, or any view of one), all() returns true iff every element is 1; it is true for empty tensors. Hence (a==b).all() is true iff all broadcast element pairs compare equal.", "quantifier": "all shapes, views and contents", "why_tests_cant": "the early-exit odometer must be right for all shapes", "anchors": ["src/INNC/tensorImpl.cpp:TensorImpl::all"]}
{"id": "C16", "title": "all() on arbitrary dtypes", "statement": "all() returns true iff every element of the tensor is non-zero, for every dtype.", "quantifier": "all dtypes, shapes and contents", "why_tests_cant": "depends on the byte representation of each dtype", "anchors": ["src/INNC/tensorImpl.cpp:TensorImpl::all"]}
{"id": "C17", "title": "Slicing follows Python semantics", "statement": "t[\"i\"], t[\"b:e:s\"] and multi-dimensional combinations select, per dimension, exactly the indices that Python sequence indexing/slicing selects, in the same order (negative indices, omitted parts, out-of-range clamping, negative steps), drop dimensions indexed by a single integer, keep unmentioned trailing dimensions, and share storage with t.", "quantifier": "all shapes, all integer triples (b,e,s) and omissions, all already-sliced/transposed sources", "why_tests_cant": "unbounded integer bounds and steps and nested views", "anchors": ["src/INNC/tensorImpl.cpp:TensorImpl::operator[]", "src/INNC/utils/utils.cpp:ssplit", "include/INNC/utils/utils.hpp:trim_"]}
{"id": "C18", "title": "Bad subscripts are rejected", "statement": "A subscript with more dimensions than the tensor, a single index outside [-n,n), a zero step, or a part that does not start with an integer throws (runtime_error or invalid_argument / out_of_range) and nothing changes; a well-formed in-range one never throws.", "quantifier": "all subscript strings and shapes", "why_tests_cant": "all strings", "anchors": ["src/INNC/tensorImpl.cpp:TensorImpl::operator[]", "src/INNC/utils/utils.cpp:ssplit"]}
{"id": "C19", "title": "Transpose", "statement": "transpose(d0,d1) swaps the two dimensions: result size and element at swapped index agree with the source; storage is shared; transposing twice gives back the same view; equal or out-of-range dimensions throw runtime_error.", "quantifier": "all shapes, views and dimension pairs", "why_tests_cant": "all ranks and dimension pairs", "anchors": ["src/INNC/tensorImpl.cpp:TensorImpl::transpose"]}
{"id": "C20", "title": "Reshape keeps the row-major element sequence", "statement": "reshape to a shape with the same number of elements yields exactly that shape with the same elements in row-major order, for contiguous and non-contiguous sources; a different number of elements throws runtime_error.", "quantifier": "all shapes, all source views, all target shapes", "why_tests_cant": "the view/copy decision depends on strides of arbitrary view chains", "anchors": ["src/INNC/tensorImpl.cpp:TensorImpl::reshape", "src/INNC/tensorImpl.cpp:regularize_size"]}
{"id": "C21", "title": "Reshape argument checking", "statement": "reshape accepts at most one -1, which it replaces by the unique size making the element counts agree, and throws for anything else that is not a legal shape of the same element count (two -1, no such size, other negative numbers).", "quantifier": "all signed size vectors and element counts", "why_tests_cant": "wrap-around makes some illegal vectors look legal", "anchors": ["src/INNC/tensorImpl.cpp:regularize_size"]}
{"id": "C22", "title": "clone and contiguous make independent copies", "statement": "clone()/contiguous() return a contiguous tensor with the same shape, dtype and elements, whose storage is new: no later in-place addition to either tensor (or views of it) changes the other.", "quantifier": "all tensors and views; all later in-place operations", "why_tests_cant": "aliasing over all histories", "anchors": ["src/INNC/tensorImpl.cpp:TensorImpl::clone,TensorImpl::contiguous", "include/INNC/ops.hpp:tensor_clone"]}
{"id": "C23", "title": "detach shares data and drops gradient tracking", "statement": "detach() returns a tensor with the same shape, dtype and storage (so in-place changes are mutually visible), with requires_grad false and no backward history.", "quantifier": "all tensors", "why_tests_cant": "all tensors and histories", "anchors": ["src/INNC/tensorImpl.cpp:TensorImpl::detach"]}
{"id": "C24", "title": "is_contiguous is sound", "statement": "If is_contiguous() is true then consecutive elements in row-major order occupy consecutive cells; fresh tensors and contiguous() results report true.", "quantifier": "all layouts reachable by any chain of views", "why_tests_cant": "all view chains", "anchors": ["src/INNC/layouts.cpp:StridedLayout::is_contiguous"]}
{"id": "C25", "title": "Views never leave their buffer and never alias themselves", "statement": "Starting from a freshly created tensor, any chain of slicing, transposing, reshaping and detaching yields a tensor all of whose elements lie inside the buffer, with distinct indices at distinct cells.", "quantifier": "all chains of view operations of any length, all arguments that do not throw", "why_tests_cant": "unbounded chains with negative steps and offsets", "anchors": ["src/INNC/tensorImpl.cpp:TensorImpl::operator[],transpose,reshape,detach", "src/INNC/layouts.cpp:StridedLayout::cnt_from_index"]}
{"id": "C26", "title": "sum", "statement": "sum() is a 0-dimensional i64 (integer input) or f64 (floating input) tensor equal to the sum of all elements added in row-major order; 0 for an empty tensor; undefined exactly when an integer partial sum leaves the i64 range.", "quantifier": "all tensors, views, dtypes", "why_tests_cant": "all shapes, views and values", "anchors": ["include/INNC/ops.hpp:tensor_sum", "src/INNC/tensorImpl.cpp:TensorImpl::sum"]}
{"id": "C27", "title": "mean", "statement": "mean() is sum() divided by the number of elements (truncating for integer dtypes); 0 for an empty tensor.", "quantifier": "all tensors, views, dtypes", "why_tests_cant": "all shapes, views and values", "anchors": ["include/INNC/ops.hpp:tensor_mean", "src/INNC/tensorImpl.cpp:TensorImpl::mean"]}
{"id": "C28", "title": "max and min of a tensor", "statement": "max() (min()) of a non-empty tensor that is not gradient-tracked is a 0-dimensional tensor of the same dtype holding an element of the tensor that is >= (<=) every element.", "quantifier": "all non-empty tensors whose first element is the first cell of their buffer, all dtypes without NaN", "why_tests_cant": "all contents", "anchors": ["include/INNC/ops.hpp:tensor_max,tensor_min"]}
{"id": "C29", "title": "max and min of a view", "statement": "max()/min() of any non-empty slice returns an element of that slice.", "quantifier": "all slices", "why_tests_cant": "depends on cells outside the slice", "anchors": ["include/INNC/ops.hpp:tensor_max,tensor_min"]}
{"id": "C30", "title": "abs", "statement": "abs() has the same shape and dtype and each element is the absolute value of the source element (C++ arithmetic in the dtype).", "quantifier": "all tensors with a buffer-filling layout, all dtypes and values", "why_tests_cant": "all values, including the most negative integers", "anchors": ["include/INNC/ops.hpp:tensor_abs", "src/INNC/tensorImpl.cpp:TensorImpl::abs"]}
{"id": "C31", "title": "abs of a slice is memory safe", "statement": "abs() of any slice writes only inside its own result buffer.", "quantifier": "all slices", "why_tests_cant": "heap overflow need not be visible in a test's output", "anchors": ["src/INNC/tensorImpl.cpp:TensorImpl::abs"]}
{"id": "C32", "title": "dtype conversion", "statement": "type(t) keeps the shape and converts each element as C++ does; widening integer conversions are lossless, so converting back gives the original elements; narrowing wraps modulo 2^width; converting to the current dtype returns the same tensor; a gradient-tracked tensor is never converted to an integer dtype (runtime_error).", "quantifier": "all tensors, all 36 dtype pairs, all values", "why_tests_cant": "all values x dtype pairs", "anchors": ["src/INNC/tensorImpl.cpp:TensorImpl::type", "include/INNC/ops.hpp:tensor_to_type"]}
{"id": "C33", "title": "cat", "statement": "cat(ts, d) has the shape of ts[0] with dimension d the sum of the inputs' sizes there, the promoted dtype, and its element at an index is the (converted) element of the input that owns that position of dimension d; mismatched ranks or other dimensions or a bad d throw runtime_error.", "quantifier": "all non-empty lists of tensors (any views), all dimensions", "why_tests_cant": "any number of inputs of any shapes", "anchors": ["src/INNC/tensorImpl.cpp:TensorImpl::cat", "include/INNC/ops.hpp:tensor_cat"]}
{"id": "C34", "title": "to_string is faithful", "statement": "to_string() prints the nested row-major bracket form of the tensor's elements; for integer dtypes two tensors of the same shape without zero dimensions print alike only if all their elements are equal. A finite float prints as the multiple of 10^-6 nearest to it, so floating tensors of one shape that print alike differ by at most 10^-6.", "quantifier": "all tensors and views", "why_tests_cant": "injectivity over all contents", "anchors": ["src/INNC/layouts.cpp:to_string_from,to_string_from_helper", "src/INNC/types.cpp:innc_type_to_string"]}
{"id": "C35", "title": "Nested initializer lists", "statement": "A rectangular nested initializer gives a tensor with the nesting's shape and the leaves in row-major order; a ragged nesting or mixed leaf types throws invalid_argument; the empty initializer gives the null tensor that prints as [].", "quantifier": "all nestings of any depth", "why_tests_cant": "all trees", "anchors": ["include/INNC/tensor.hpp:TensorInit", "src/INNC/tensor.cpp:TensorInit::createImpl"]}
{"id": "C36", "title": "stride() reports the strides", "statement": "stride() returns the tensor's strides.", "quantifier": "all tensors", "why_tests_cant": "one call suffices to refute it, none to prove it", "anchors": ["src/INNC/tensorImpl.cpp:TensorImpl::stride"]}
{"id": "C37", "title": "randn", "statement": "randn(sizes, dtype) throws runtime_error for integer dtypes and otherwise returns a tensor of the requested shape and floating dtype, writing only inside its own buffer.", "quantifier": "all shapes, dtypes and random samples", "why_tests_cant": "heap overflow; random contents", "anchors": ["src/INNC/tensorImpl.cpp:TensorImpl::randn"]}
{"id": "C38", "title": "Operations do not modify existing tensors", "statement": "Apart from +=, zero_grad, backward and release, no operation changes the shape, dtype or any element of a tensor that existed before the call, whatever its outcome.", "quantifier": "every operation, argument, state and outcome (including throwing)", "why_tests_cant": "all operations in all states", "anchors": ["src/INNC/tensorImpl.cpp", "include/INNC/ops.hpp"]}
{"id": "C39", "title": "In-place addition", "statement": "a += b for a broadcastable into a's shape adds b elementwise into a; a view's in-place addition is visible through every tensor sharing those cells and changes no other cell; it throws for a gradient-tracked a, leaving everything unchanged.", "quantifier": "all shapes, dtypes, views with b stored apart from a", "why_tests_cant": "aliasing", "anchors": ["src/INNC/tensorImpl.cpp:TensorImpl::operator+=", "include/INNC/ops.hpp:tensor_add"]}
{"id": "C40", "title": "In-place addition reduces over broadcast dimensions", "statement": "When a has size 1 (or a missing dimension) where b is larger, a += b adds to each element of a the sum of all elements of b broadcast onto it. Gradient accumulation relies on this.", "quantifier": "all shapes with b's extra extents, all views stored apart", "why_tests_cant": "all shape pairs", "anchors": ["include/INNC/ops.hpp:tensor_add,tensor_mul_acc_f"]}
{"id": "C41", "title": "Failed in-place addition leaves the tensor unchanged", "statement": "If a += b throws, a keeps its value.", "quantifier": "all a, b", "why_tests_cant": "exception paths after partial writes", "anchors": ["src/INNC/tensorImpl.cpp:TensorImpl::operator+="]}
{"id": "C42", "title": "Only floating tensors require gradients, and tracking propagates", "statement": "In every reachable state a tensor with requires_grad has dtype f32 or f64; requires_grad(true) on an integer tensor throws; the result of a differentiable operation requires grad iff some tensor operand does.", "quantifier": "every history of API calls", "why_tests_cant": "all histories", "anchors": ["src/INNC/tensor.cpp:Tensor::requires_grad", "include/INNC/utils/utils.hpp:apply_binary_operator"]}
{"id": "C43", "title": "backward() preconditions", "statement": "backward() on a tensor that does not require grad, has no backward history, or has more or fewer than one element throws runtime_error and changes nothing.", "quantifier": "all states", "why_tests_cant": "all states", "anchors": ["src/INNC/tensorImpl.cpp:TensorImpl::backward"]}
{"id": "C44", "title": "backward() terminates and processes each node once, consumers first", "statement": "On any graph, backward() finishes. On a graph not yet traversed by a backward and without intermediates switched to requires_grad(false) (that case is C53), every intermediate reachable from the root is processed exactly once, after all its consumers.", "quantifier": "every reachable graph, of any size and sharing", "why_tests_cant": "all DAGs; termination", "anchors": ["src/INNC/tensorImpl.cpp:refresh_n_outway,TensorImpl::backward", "src/INNC/function.cpp:Backward::try_accumulate_update"]}
{"id": "C45", "title": "backward() computes the exact gradient", "statement": "On a fresh graph built from +, -, *, /, sum, abs, clone, type, cat, slicing, transpose and reshape, backward() adds to every leaf's grad the derivative of the root with respect to that leaf (in exact arithmetic): for every direction, the forward-mode derivative along it equals the inner product of the gradients with it.", "quantifier": "all graphs, shapes with broadcasting, sharing, views, values and directions", "why_tests_cant": "all computation graphs", "anchors": ["src/INNC/function.cpp", "src/INNC/tensorImpl.cpp:TensorImpl::backward"]}
{"id": "C46", "title": "Leaf gradients accumulate; zero_grad clears", "statement": "Backward passes over separately built graphs add up in a shared leaf's grad; zero_grad() sets every element of the existing grad to 0 and leaves all data unchanged.", "quantifier": "all pairs of graphs", "why_tests_cant": "all histories", "anchors": ["src/INNC/function.cpp:Backward::try_accumulate_grad", "src/INNC/tensorImpl.cpp:TensorImpl::zero_grad"]}
{"id": "C47", "title": "retain_grad", "statement": "After backward() on a fresh graph, a processed intermediate's grad() is empty unless retain_grad was set on it; leaves keep theirs.", "quantifier": "all graphs", "why_tests_cant": "all graphs", "anchors": ["src/INNC/tensorImpl.cpp:TensorImpl::backward"]}
{"id": "C48", "title": "A second backward through the same intermediates accumulates again", "statement": "Calling backward() from two roots that share intermediates (or twice from one root) adds both derivatives to the leaves' grads.", "quantifier": "all graphs", "why_tests_cant": "needs stateful histories; the repo's own test encodes the opposite", "anchors": ["src/INNC/function.cpp:Backward::try_accumulate_update", "include/INNC/function.hpp:Backward::is_ready"]}
{"id": "C49", "title": "backward() from a one-element view", "statement": "backward() started at a one-element slice, transpose or reshape of a gradient-tracked tensor gives that tensor the one-hot gradient.", "quantifier": "all views", "why_tests_cant": "specific graph shape", "anchors": ["src/INNC/tensorImpl.cpp:TensorImpl::backward", "src/INNC/function.cpp:NoBack::step_back"]}
{"id": "C50", "title": "Gradient of mean", "statement": "Backward through mean() multiplies the upstream gradient by 1/numel.", "quantifier": "all graphs with mean", "why_tests_cant": "depends on upstream gradient", "anchors": ["src/INNC/function.cpp:MeanBack::step_back"]}
{"id": "C51", "title": "Gradient of division", "statement": "Backward through a / b gives da += g/b and db -= g*(a/b)/b, for tracked operands, with either operand possibly a constant or broadcast.", "quantifier": "all shapes and tracking combinations", "why_tests_cant": "null dereference depends on tracking flags", "anchors": ["src/INNC/function.cpp:DivBack::step_back", "include/INNC/ops.hpp:tensor_div_back_numerator,tensor_div_back_denominator"]}
{"id": "C52", "title": "max/min on gradient-tracked tensors", "statement": "max()/min() of a non-empty tracked tensor returns the extremum and backward gives gradient 1 at one extremal position and 0 elsewhere.", "quantifier": "all tracked tensors", "why_tests_cant": "depends on the position of the extremum", "anchors": ["include/INNC/ops.hpp:tensor_max,tensor_min", "src/INNC/tensorImpl.cpp:TensorImpl::max"]}
{"id": "C53", "title": "requires_grad(false) on an intermediate cuts only that path", "statement": "After requires_grad(false) on an intermediate, gradients still flow to leaves along all other paths.", "quantifier": "all graphs", "why_tests_cant": "graph-shape dependent", "anchors": ["src/INNC/tensorImpl.cpp:refresh_n_outway", "src/INNC/function.cpp:Backward::try_accumulate_update"]}
{"id": "C54", "title": "Memory safety over histories", "statement": "In every history of API calls respecting the documented preconditions, no call reads or writes outside a buffer, through a null buffer, at the wrong element type, or reads memory it never initialised.", "quantifier": "all histories", "why_tests_cant": "all histories", "anchors": ["include/INNC/ops.hpp", "src/INNC/tensorImpl.cpp", "src/INNC/storage.cpp"]}
{"id": "C55", "title": "Shapes too large to represent are rejected", "statement": "Creating a tensor whose element count does not fit size_t fails instead of returning a tensor with a smaller buffer.", "quantifier": "all shapes", "why_tests_cant": "sizes near 2^64", "anchors": ["src/INNC/layouts.cpp:Layout::numel", "src/INNC/tensorImpl.cpp:TensorImpl::create"]}
{"id": "C56", "title": "In-place addition of an overlapping view", "statement": "a += b equals a_old + b_old even when b is a different view of a's storage (e.g. its transpose).", "quantifier": "all views", "why_tests_cant": "aliasing", "anchors": ["include/INNC/ops.hpp:tensor_add"]}
{"id": "C57", "title": "A slice can be a gradient leaf", "statement": "Making a slice of an untracked tensor require grad and running backward gives it its gradient without touching memory outside the gradient buffer.", "quantifier": "all slices", "why_tests_cant": "heap overflow", "anchors": ["src/INNC/function.cpp:Backward::try_accumulate_update"]}
{"id": "C58", "title": "backward() changes only gradients", "statement": "Whatever its outcome, backward() changes no element of any tensor's data that is not a gradient: all forward values, shapes and dtypes stay the same.", "quantifier": "all fresh graphs", "why_tests_cant": "all graphs", "anchors": ["src/INNC/function.cpp", "src/INNC/tensorImpl.cpp:TensorImpl::backward"]}
{"id": "C59", "title": "Every call terminates", "statement": "Every API call finishes (with a result, an exception or undefined behaviour) in every state a program can reach; no loop over a shape or over the graph runs forever.", "quantifier": "every history of calls and every further call with any arguments of its C++ types", "why_tests_cant": "termination of all loops over unbounded states", "anchors": ["include/INNC/utils/utils.hpp:for_each_sizevec", "src/INNC/tensorImpl.cpp:TensorImpl::backward,refresh_n_outway"]}
{"id": "C60", "title": "Gradient descent", "statement": "In exact arithmetic, after t.backward() the calls g = w.grad(); s = g * c; d = w.detach(); d += s; w.zero_grad() for each of several tracked leaves w on separate buffers succeed; they add to every element of w the value of c times the derivative of t, set its gradient to 0, change no tensor on another buffer, and leave a state from which the program can build the next graph.", "quantifier": "all programs of the calls that C45 covers, any number of parameters, any rate tensor that broadcasts into their shapes", "why_tests_cant": "a statement about whole training loops: in-place writes between graphs, aliasing of a view with its leaf", "anchors": ["src/INNC/tensorImpl.cpp:TensorImpl::backward,TensorImpl::zero_grad,TensorImpl::detach", "src/INNC/tensor.cpp:operator+=", "include/INNC/tensor.hpp"]}
{"id": "C61", "title": "Retained gradients are derivatives", "statement": "In exact arithmetic, after backward() on a fresh graph the grad() of every intermediate on which retain_grad(true) was called holds the derivative of the root with respect to each element of that intermediate.", "quantifier": "all programs of the calls that C45 covers, every intermediate", "why_tests_cant": "gradients of a view and of its base share one buffer, so contributions to the base show up in the view", "anchors": ["src/INNC/tensorImpl.cpp:TensorImpl::backward,TensorImpl::retain_grad", "src/INNC/function.cpp"]}
{"id": "C62", "title": "No ownership cycles", "statement": "After any sequence of calls no tensor keeps itself alive through a chain of the shared pointers that tensors and backward functions hold (a tensor's gradient, the inputs of its backward function and the slope stored by abs, max and min). Hence in every non-empty group of tensors there is one that no member of the group owns, and dropping all handles frees everything.", "quantifier": "all call sequences, including those that throw, every tensor and every group of tensors", "why_tests_cant": "graph nodes hold their inputs and tensors hold gradients; a gradient that referred back to its tensor would leak the whole graph", "anchors": ["include/INNC/tensorImpl.hpp:TensorImpl", "include/INNC/function.hpp:Backward", "src/INNC/tensorImpl.cpp", "src/INNC/function.cpp"]}
{"id": "C63", "title": "Freed objects do not matter", "statement": "The outcome of a call, and what it leaves behind for the program, depend only on objects that the handles it is given keep alive; it changes no other object. So freeing tensors and buffers that the program has lost is never observable.", "quantifier": "all states, calls and histories", "why_tests_cant": "a use after free shows only if the memory has been reused", "anchors": ["include/INNC/tensorImpl.hpp:TensorImpl", "include/INNC/function.hpp:Backward", "src/INNC/tensor.cpp", "src/INNC/tensorImpl.cpp", "src/INNC/function.cpp"]}
{"id": "C64", "title": "Floats without rounding", "statement": "As long as comparisons only see numbers that were not rounded, a history in IEEE float and double arithmetic makes the same tensors, views and graph and has the same results as in exact arithmetic, and every element reached without rounding is the exact one. In particular a gradient element reached without rounding is exactly the old gradient plus the derivative.", "quantifier": "all histories of calls, float and double", "why_tests_cant": "exact gradients are a statement about rational numbers; this carries them over to the numbers that the library computes", "anchors": ["src/INNC/types.cpp", "include/INNC/types.hpp", "src/INNC/tensorImpl.cpp", "src/INNC/function.cpp"]}
{"id": "C65", "title": "Flags change only on request", "statement": "retain_grad() and requires_grad() of a tensor are what the last successful call of retain_grad(b) and requires_grad(b) on it made them; every other call, backward() included, leaves them alone, and a new tensor does not retain its gradient.", "quantifier": "all histories of calls, from every state", "why_tests_cant": "whether a gradient is kept or computed at all is decided by these flags", "anchors": ["src/INNC/tensor.cpp", "src/INNC/tensorImpl.cpp", "include/INNC/tensorImpl.hpp:TensorImpl"]}
{"id": "C66", "title": "What a pass of backward() reaches and writes", "statement": "Where every intermediate below the root was never passed or can no longer become ready, backward() processes exactly the intermediates with no such blocked intermediate on any path from the root, once each and consumers first; it changes gradients of operands of these only, and no other buffer that existed before.", "quantifier": "all histories of calls and all graphs in such a state", "why_tests_cant": "depends on the counters left by earlier passes", "anchors": ["src/INNC/tensorImpl.cpp:refresh_n_outway,TensorImpl::backward", "src/INNC/function.cpp", "include/INNC/function.hpp:Backward::is_ready"]}
{"id": "C67", "title": "Float arithmetic is correctly rounded", "statement": "Every float and double that a history of calls leaves in a buffer is a number of its format. Each element of a + b, a - b, a * b and a / b in floating point is the exact result rounded to nearest, ties to even, or the infinity of its sign beyond the range; conversions round likewise. sum() of n finite elements differs from the exact sum by at most (1 + 2^-53)^(n-1) - 1 times the sum of the magnitudes unless that is near the end of the range, and mean() rounds the quotient of such a sum by n.", "quantifier": "all histories of calls, all finite operands, both formats", "why_tests_cant": "says how far a computed number can be from the exact one", "anchors": ["src/INNC/types.cpp", "include/INNC/types.hpp", "src/INNC/tensorImpl.cpp"]}
{"id": "C68", "title": "A gradient has the type and shape of its tensor", "statement": "After any sequence of calls, when a tensor has a gradient it is another tensor, of the same dtype and shape, laid out like the tensor or densely, and has no backward history of its own.", "quantifier": "all histories of calls, all tensors", "why_tests_cant": "grad() can be combined with the tensor elementwise without broadcasting", "anchors": ["src/INNC/function.cpp:try_accumulate_update", "src/INNC/tensorImpl.cpp:share_grad_storage,TensorImpl::backward"]}
{"id": "C69", "title": "Formulas over leaves get their partial derivatives", "statement": "In exact arithmetic, after any program of Spec/Program.v: computing a formula built from +, -, * and / over floating-point leaves whose shapes broadcast, then its sum() and backward(), raises no error; the sum is that of the formula's values over all positions, and every tracked leaf element's gradient grows by the sum of the formula's partial derivatives over the positions the element is broadcast to. These partial derivatives are the limits of the difference quotients.", "quantifier": "all programs, formulas, shapes and element values (quotients as in C51)", "why_tests_cant": "the quick start of the documentation does exactly this", "anchors": ["docs/quickstart.rst", "src/INNC/function.cpp:AddBack,SubBack,MulBack,DivBack,SumBack", "src/INNC/tensorImpl.cpp:TensorImpl::backward"]}
{"id": "C70", "title": "What queries answer, and calls on null handles", "statement": "size(), numel(), type(), requires_grad(), retain_grad() and grad() answer what the tensor is and change nothing; numel() is the number of indices modulo 2^64; is_contiguous() is true exactly when every stride is the number of elements of the dimensions after it. Every call on a null handle save to_string() dereferences it before it changes anything; cat() first checks the inputs before the null one, and throws if these do not fit together.", "quantifier": "all states, tensors and calls", "why_tests_cant": "programs branch on these answers; grad() may answer a null handle", "anchors": ["src/INNC/tensor.cpp:Tensor", "src/INNC/layouts.cpp:is_contiguous,numel"]}
{"id": "C71", "title": "release() and what can be done afterwards", "statement": "release() frees the buffer of the tensor and of every tensor that shares it, and touches no other buffer and no tensor record. Afterwards every call that looks at an element of such a tensor dereferences a null pointer, with one operand or with two.", "quantifier": "all states and tensors; calls with one or two operands whose shapes broadcast and have no dimension of size 0", "why_tests_cant": "released memory must not be read as if it were there", "anchors": ["src/INNC/tensor.cpp:Tensor::release", "src/INNC/tensorImpl.cpp:TensorImpl::release", "src/INNC/storage.cpp"]}
{"id": "C72", "title": "Training follows gradient descent", "statement": "In exact arithmetic, for any number of rounds: computing a formula over held leaves (C69), its sum() and backward(), and then updating each parameter by its gradient times a rate (C60), all calls succeed; the sum in round k is the formula's at the k-th iterate of gradient descent, and after n rounds the elements of the leaves are the n-th iterate.", "quantifier": "all programs, formulas, shapes, rates, parameters on buffers of their own and numbers of rounds", "why_tests_cant": "errors that build up over rounds (stale counters, uncleared gradients, aliased buffers) show only in loops", "anchors": ["docs/quickstart.rst", "src/INNC/tensorImpl.cpp:TensorImpl::backward,TensorImpl::zero_grad,TensorImpl::detach", "src/INNC/tensor.cpp:operator+=", "src/INNC/function.cpp"]}
{"id": "C73", "title": "Size and stride vectors print readably", "statement": "to_string() of a SizeVec or SignedVec, and operator<<, list the decimal forms of the elements in brackets, separated by a comma and a space; the vector can be read back from the text.", "quantifier": "all vectors", "why_tests_cant": "sizes appear in error messages and are printed by programs", "anchors": ["src/INNC/types.cpp:iter_to_string,SizeVec::to_string,SignedVec::to_string"]}
{"id": "C74", "title": "Calls obey the laws of arrays", "statement": "Transposing or subscripting the result of an elementwise operation equals the operation on the transposed or subscripted operands. Integer addition and multiplication are associative, distribute and cancel, with broadcasting; float addition is not associative. A sum is unchanged by reshaping, and of integers by transposing. Mixed dtypes combine as if both operands were first converted to the common dtype. += on a copy equals +. Cutting a tensor in two and joining the parts with cat() gives it back.", "quantifier": "all reachable states, tensors, layouts, dtypes, shapes, subscripts and operators that meet the stated hypotheses", "why_tests_cant": "programs are rearranged by such laws; each relates several operations, so that one which is wrong breaks the law even if its own property is stated wrongly", "anchors": ["src/INNC/tensorImpl.cpp", "include/INNC/ops.hpp", "src/INNC/tensor.cpp:operator+=", "src/INNC/layouts.cpp"]}
{"id": "C75", "title": "Expressions compute what they denote", "statement": "An expression over existing tensors, built from arithmetic, comparisons, negation, conversions, copies, sums, means, transposes, subscripts, reshapes and cat, evaluated by the public calls with operands first, ends in a tensor that holds the array the expression denotes, with its dtype, shape and tracking, and changes no existing array. If the arithmetic of some element is undefined in C++, so is the evaluation. Expressions that denote the same array compute the same array.", "quantifier": "all expressions, reachable states and leaves; shapes, subscripts and sizes as the library accepts them; leaves with strides below 2^63 in buffers of fewer than 2^62 elements", "why_tests_cant": "single calls are right in isolation only if the tensors they return meet what later calls demand of layouts and buffers; composition is what users rely on", "anchors": ["src/INNC/tensorImpl.cpp", "include/INNC/ops.hpp", "src/INNC/layouts.cpp", "src/INNC/utils/utils.cpp"]}
{"id": "C76", "title": "backward() differentiates expressions", "statement": "A program evaluates an expression over tensors it holds and calls backward() on the result, which has one element. The evaluation yields the denoted array, backward() succeeds, and to each element of the gradient of each tracked leaf it adds, in exact arithmetic, the slope of the denotation as a function of that element of the leaf. Leaves that do not occur get 0. The state afterwards is that of a program again, so the statement applies to further expressions.", "quantifier": "all programs, expressions, leaves and elements in exact arithmetic; tracked arrays are not compared, a tracked mean comes last, a tracked quotient is as in C51 and its denominators are not 0", "why_tests_cant": "gradients are specified by the function the user wrote, without reference to the graph that the calls record", "anchors": ["src/INNC/function.cpp", "src/INNC/tensorImpl.cpp", "include/INNC/ops.hpp", "include/INNC/function.hpp"]}
{"id": "C77", "title": "Gradient descent on expressions", "statement": "A program that holds leaves evaluates an expression, calls backward() on the result, which has one element, and for each parameter adds rate * gradient to its data and clears the gradient. All of these calls succeed; in exact arithmetic each element of a parameter moves by the rate times the slope of the denotation as a function of that element, and the other leaves keep their elements. As long as the expression stays defined and smooth along the descent, any number of rounds can be run: each yields the array denoted at that point, and in the end the leaves hold the arrays that gradient descent leads to.", "quantifier": "all programs, expressions, parameters, rates and numbers of rounds in exact arithmetic; the parameters are tracked leaves that occur in the expression, and no other held tensor is on their buffers", "why_tests_cant": "a training loop over any expression of the library is gradient descent on the function the user wrote", "anchors": ["src/INNC/function.cpp", "src/INNC/tensorImpl.cpp", "include/INNC/ops.hpp", "include/INNC/function.hpp"]}
{"id": "C78", "title": "Training on least squares converges to the minimum", "statement": "Train w on the sum of (x * w - y) * (x * w - y), where x, w and y may be broadcast, in exact arithmetic. Let the solution for an element of w be the sum of x * y divided by the sum of x * x, over the positions where that element is read. Each round multiplies the distance of the element from its solution by 1 + 2 * rate * (sum of x * x). With other elements of w than the solutions the sum is greater by their squared distances from the solutions, each times its sum of x * x. If all of these factors are below 1 in absolute value, then for every bound there is a number of rounds after which every element of w is within it of its solution; if a factor is above 1, an element that is not its solution already moves away from it beyond every bound.", "quantifier": "all programs, tensors, rates, bounds and numbers of rounds in exact arithmetic; w is a tracked leaf, no other held tensor is on its buffer, and no sum of x * x is 0", "why_tests_cant": "the library does what it is for: a model trained with it converges to the best fit", "anchors": ["src/INNC/function.cpp", "src/INNC/tensorImpl.cpp", "include/INNC/ops.hpp", "include/INNC/function.hpp"]}
{"id": "C79", "title": "Gradients of several expressions add up", "statement": "Evaluate any number of expressions over the same leaves one after the other, each with one element and smooth where it is evaluated, with backward() on each result and no zero_grad() in between, in exact arithmetic. All of these calls succeed and leave the data of the leaves alone, and the gradient of each element of a tracked leaf grows by the derivative of the sum of the results with respect to that element. The order of the expressions does not matter.", "quantifier": "all programs, all finite lists of expressions of C75 to which backward() applies, and all leaves in exact arithmetic", "why_tests_cant": "training on batches accumulates gradients over several losses", "anchors": ["src/INNC/function.cpp", "src/INNC/tensorImpl.cpp", "include/INNC/function.hpp"]}
