#!/usr/bin/env python3
# Regenerates /verif/properties.jsonl (one JSON object per line).
import json, os
P = []
def p(id, title, statement, quant, why, *anchors):
    P.append(dict(id=id, title=title, statement=statement, quantifier=quant,
                  why_tests_cant=why, anchors=list(anchors)))

p("C01","Whole-tensor operations visit each index exactly once",
  "An operation that walks a tensor performs its per-element action exactly once for every multi-index of the shape, in row-major order (last index fastest), performs it once for a 0-dimensional shape, not at all when some dimension is 0, and always finishes.",
  "every shape (any rank, any sizes), every per-element action",
  "the walk is an odometer with a carry loop; an off-by-one shows only for particular ranks and sizes and no finite set of shapes covers all ranks",
  "include/INNC/utils/utils.hpp:for_each_sizevec")
p("C02","Fresh tensors give every index its own in-bounds cell",
  "In a freshly created tensor of a given shape, element (i0,...,ik) is stored at the row-major linear position, distinct indices have distinct positions, and all positions are inside the allocated buffer.",
  "every shape whose byte size fits the address space, every dtype",
  "quantifies over all shapes and all index pairs",
  "src/INNC/layouts.cpp:StridedLayout::StridedLayout,StridedLayout::cnt_from_index,Layout::numel","src/INNC/tensorImpl.cpp:TensorImpl::create")
p("C03","from_blob copies the buffer",
  "from_blob(data, sizes, dtype) yields a tensor whose element at each multi-index is the buffer element at the row-major position; no other tensor changes.",
  "every shape, dtype and buffer contents",
  "unbounded shapes and contents",
  "src/INNC/tensorImpl.cpp:TensorImpl::from_blob")
p("C04","zeros, ones, full, eye and the *_like forms",
  "zeros/ones/full(v) have the requested shape and dtype and every element equals 0, 1, or v converted to the dtype; eye(n,m) is 1 on the diagonal and 0 elsewhere; zeros_like/ones_like use the shape and dtype of their argument.",
  "every shape, dtype and fill value (for which the C++ conversion is defined)",
  "unbounded shapes and values",
  "src/INNC/tensorImpl.cpp:zeros,ones,full,eye,zeros_like,ones_like","include/INNC/ops.hpp:tensor_fill,tensor_eye")
p("C05","Broadcast result shape",
  "For broadcast-compatible operand shapes (aligned at the last dimension, sizes equal or one of them 1) with no zero-sized dimension, a binary operator's result has exactly the NumPy broadcast shape, whichever operand comes first.",
  "every pair of compatible shapes of any ranks",
  "ranges over all pairs of shapes",
  "src/INNC/utils/utils.cpp:broadcast_range","include/INNC/utils/utils.hpp:apply_no_grad_binary_op")
p("C06","Incompatible shapes are rejected",
  "Applying +, -, *, / or a comparison to tensors whose shapes are not broadcast-compatible throws std::runtime_error, and compatible shapes are accepted.",
  "every pair of shapes, including ones with zero-sized dimensions",
  "the guard in the code is a tautology, so rejection depends on a different check being reached for every shape pair",
  "src/INNC/utils/utils.cpp:broadcast_range","src/INNC/tensorImpl.cpp:TensorImpl::cnt_from_aug_index")
for i,(op,name,anch) in enumerate([("+","addition","tensor_add"),("-","subtraction","tensor_sub"),("*","multiplication","tensor_mul"),("/","division","tensor_div")]):
    p("C%02d"%(7+i),"Elementwise "+name,
      f"a {op} b is a new tensor of the broadcast shape and promoted dtype whose element at each index is the C++ value of a[i] {op} b[i] (operands broadcast, usual arithmetic conversions, result converted to the promoted dtype); operands and all other tensors keep their contents. If some element computation is undefined in C++ (signed overflow, division by zero, unrepresentable conversion) the call is undefined, otherwise it succeeds.",
      "all shapes, all 36 dtype pairs, all element values, all strided views as operands",
      "all shapes x dtypes x values x view layouts",
      f"include/INNC/ops.hpp:{anch}","include/INNC/utils/utils.hpp:apply_no_grad_binary_op,apply_binary_operator",f"src/INNC/tensorImpl.cpp:operator{op}")
p("C11","+ and * commute, including mixed dtypes",
  "a + b and b + a (and a * b and b * a) have the same shape, dtype and elements, and are undefined for the same inputs, although the implementation swaps operands internally for mixed dtypes.",
  "all shapes, all dtype pairs, all values; for floating dtypes assuming only that IEEE addition and multiplication commute",
  "36 dtype pairs times unbounded values",
  "include/INNC/utils/utils.hpp:apply_no_grad_binary_op")
p("C12","Result dtype promotion is a consistent lattice",
  "The dtype of a binary operation's result is the join in i8<i16<i32<i64<f32<f64: commutative, associative, idempotent, floating iff some operand is; and it always equals the element type the kernel writes with, so no buffer is ever written at the wrong width.",
  "all dtype pairs and triples, all six-by-six dispatch entries",
  "a wrong table entry corrupts memory only for that dtype pair",
  "include/INNC/types.hpp:larger_type,innc_common_t","include/INNC/dispatcher.hpp")
p("C13","Unary minus",
  "-a has a's shape and dtype and elements equal to the negation of a's elements.",
  "all tensors and dtypes",
  "all dtypes and values",
  "src/INNC/tensorImpl.cpp:TensorImpl::operator-","src/INNC/tensorImpl.cpp:TensorImpl::create")
p("C14","Comparisons",
  "a<b, a<=b, a>b, a>=b, a==b, a!=b give an i8 tensor of the broadcast shape holding 1 where the C++ comparison of the (converted) elements holds and 0 elsewhere; a!=b is the complement of a==b, a>b equals b<a and, for integer dtypes, a>=b is the complement of a<b. They never fail on values.",
  "all shapes, dtype pairs and values",
  "all shapes x dtype pairs x values",
  "include/INNC/ops.hpp:tensor_lt,tensor_gt,tensor_le,tensor_ge,tensor_eq,tensor_ne","include/INNC/utils/utils.hpp:apply_cmp_op")
p("C15","all() on comparison results",
  "For an i8 tensor holding only 0 and 1 (such as any comparison result, or any view of one), all() returns true iff every element is 1; it is true for empty tensors. Hence (a==b).all() is true iff all broadcast element pairs compare equal.",
  "all shapes, views and contents",
  "the early-exit odometer must be right for all shapes",
  "src/INNC/tensorImpl.cpp:TensorImpl::all")
p("C16","all() on arbitrary dtypes",
  "all() returns true iff every element of the tensor is non-zero, for every dtype.",
  "all dtypes, shapes and contents",
  "depends on the byte representation of each dtype",
  "src/INNC/tensorImpl.cpp:TensorImpl::all")
p("C17","Slicing follows Python semantics",
  "t[\"i\"], t[\"b:e:s\"] and multi-dimensional combinations select, per dimension, exactly the indices that Python sequence indexing/slicing selects, in the same order (negative indices, omitted parts, out-of-range clamping, negative steps), drop dimensions indexed by a single integer, keep unmentioned trailing dimensions, and share storage with t.",
  "all shapes, all integer triples (b,e,s) and omissions, all already-sliced/transposed sources",
  "unbounded integer bounds and steps and nested views",
  "src/INNC/tensorImpl.cpp:TensorImpl::operator[]","src/INNC/utils/utils.cpp:ssplit","include/INNC/utils/utils.hpp:trim_")
p("C18","Bad subscripts are rejected",
  "A subscript with more dimensions than the tensor, a single index outside [-n,n), a zero step, or a part that does not start with an integer throws (runtime_error or invalid_argument / out_of_range) and nothing changes; a well-formed in-range one never throws.",
  "all subscript strings and shapes",
  "all strings",
  "src/INNC/tensorImpl.cpp:TensorImpl::operator[]","src/INNC/utils/utils.cpp:ssplit")
p("C19","Transpose",
  "transpose(d0,d1) swaps the two dimensions: result size and element at swapped index agree with the source; storage is shared; transposing twice gives back the same view; equal or out-of-range dimensions throw runtime_error.",
  "all shapes, views and dimension pairs",
  "all ranks and dimension pairs",
  "src/INNC/tensorImpl.cpp:TensorImpl::transpose")
p("C20","Reshape keeps the row-major element sequence",
  "reshape to a shape with the same number of elements yields exactly that shape with the same elements in row-major order, for contiguous and non-contiguous sources; a different number of elements throws runtime_error.",
  "all shapes, all source views, all target shapes",
  "the view/copy decision depends on strides of arbitrary view chains",
  "src/INNC/tensorImpl.cpp:TensorImpl::reshape","src/INNC/tensorImpl.cpp:regularize_size")
p("C21","Reshape argument checking",
  "reshape accepts at most one -1, which it replaces by the unique size making the element counts agree, and throws for anything else that is not a legal shape of the same element count (two -1, no such size, other negative numbers).",
  "all signed size vectors and element counts",
  "wrap-around makes some illegal vectors look legal",
  "src/INNC/tensorImpl.cpp:regularize_size")
p("C22","clone and contiguous make independent copies",
  "clone()/contiguous() return a contiguous tensor with the same shape, dtype and elements, whose storage is new: no later in-place addition to either tensor (or views of it) changes the other.",
  "all tensors and views; all later in-place operations",
  "aliasing over all histories",
  "src/INNC/tensorImpl.cpp:TensorImpl::clone,TensorImpl::contiguous","include/INNC/ops.hpp:tensor_clone")
p("C23","detach shares data and drops gradient tracking",
  "detach() returns a tensor with the same shape, dtype and storage (so in-place changes are mutually visible), with requires_grad false and no backward history.",
  "all tensors",
  "all tensors and histories",
  "src/INNC/tensorImpl.cpp:TensorImpl::detach")
p("C24","is_contiguous is sound",
  "If is_contiguous() is true then consecutive elements in row-major order occupy consecutive cells; fresh tensors and contiguous() results report true.",
  "all layouts reachable by any chain of views",
  "all view chains",
  "src/INNC/layouts.cpp:StridedLayout::is_contiguous")
p("C25","Views never leave their buffer and never alias themselves",
  "Starting from a freshly created tensor, any chain of slicing, transposing, reshaping and detaching yields a tensor all of whose elements lie inside the buffer, with distinct indices at distinct cells.",
  "all chains of view operations of any length, all arguments that do not throw",
  "unbounded chains with negative steps and offsets",
  "src/INNC/tensorImpl.cpp:TensorImpl::operator[],transpose,reshape,detach","src/INNC/layouts.cpp:StridedLayout::cnt_from_index")
p("C26","sum",
  "sum() is a 0-dimensional i64 (integer input) or f64 (floating input) tensor equal to the sum of all elements added in row-major order; 0 for an empty tensor; undefined exactly when an integer partial sum leaves the i64 range.",
  "all tensors, views, dtypes",
  "all shapes, views and values",
  "include/INNC/ops.hpp:tensor_sum","src/INNC/tensorImpl.cpp:TensorImpl::sum")
p("C27","mean",
  "mean() is sum() divided by the number of elements (truncating for integer dtypes); 0 for an empty tensor.",
  "all tensors, views, dtypes",
  "all shapes, views and values",
  "include/INNC/ops.hpp:tensor_mean","src/INNC/tensorImpl.cpp:TensorImpl::mean")
p("C28","max and min of a tensor",
  "max() (min()) of a non-empty tensor that is not gradient-tracked is a 0-dimensional tensor of the same dtype holding an element of the tensor that is >= (<=) every element.",
  "all non-empty tensors whose first element is the first cell of their buffer, all dtypes without NaN",
  "all contents",
  "include/INNC/ops.hpp:tensor_max,tensor_min")
p("C29","max and min of a view",
  "max()/min() of any non-empty slice returns an element of that slice.",
  "all slices",
  "depends on cells outside the slice",
  "include/INNC/ops.hpp:tensor_max,tensor_min")
p("C30","abs",
  "abs() has the same shape and dtype and each element is the absolute value of the source element (C++ arithmetic in the dtype).",
  "all tensors with a buffer-filling layout, all dtypes and values",
  "all values, including the most negative integers",
  "include/INNC/ops.hpp:tensor_abs","src/INNC/tensorImpl.cpp:TensorImpl::abs")
p("C31","abs of a slice is memory safe",
  "abs() of any slice writes only inside its own result buffer.",
  "all slices",
  "heap overflow need not be visible in a test's output",
  "src/INNC/tensorImpl.cpp:TensorImpl::abs")
p("C32","dtype conversion",
  "type(t) keeps the shape and converts each element as C++ does; widening integer conversions are lossless, so converting back gives the original elements; narrowing wraps modulo 2^width; converting to the current dtype returns the same tensor; a gradient-tracked tensor is never converted to an integer dtype (runtime_error).",
  "all tensors, all 36 dtype pairs, all values",
  "all values x dtype pairs",
  "src/INNC/tensorImpl.cpp:TensorImpl::type","include/INNC/ops.hpp:tensor_to_type")
p("C33","cat",
  "cat(ts, d) has the shape of ts[0] with dimension d the sum of the inputs' sizes there, the promoted dtype, and its element at an index is the (converted) element of the input that owns that position of dimension d; mismatched ranks or other dimensions or a bad d throw runtime_error.",
  "all non-empty lists of tensors (any views), all dimensions",
  "any number of inputs of any shapes",
  "src/INNC/tensorImpl.cpp:TensorImpl::cat","include/INNC/ops.hpp:tensor_cat")
p("C34","to_string is faithful",
  "to_string() prints the nested row-major bracket form of the tensor's elements; for integer dtypes two tensors of the same shape without zero dimensions print alike only if all their elements are equal. A finite float prints as the multiple of 10^-6 nearest to it, so floating tensors of one shape that print alike differ by at most 10^-6.",
  "all tensors and views",
  "injectivity over all contents",
  "src/INNC/layouts.cpp:to_string_from,to_string_from_helper","src/INNC/types.cpp:innc_type_to_string")
p("C35","Nested initializer lists",
  "A rectangular nested initializer gives a tensor with the nesting's shape and the leaves in row-major order; a ragged nesting or mixed leaf types throws invalid_argument; the empty initializer gives the null tensor that prints as [].",
  "all nestings of any depth",
  "all trees",
  "include/INNC/tensor.hpp:TensorInit","src/INNC/tensor.cpp:TensorInit::createImpl")
p("C36","stride() reports the strides",
  "stride() returns the tensor's strides.",
  "all tensors",
  "one call suffices to refute it, none to prove it",
  "src/INNC/tensorImpl.cpp:TensorImpl::stride")
p("C37","randn",
  "randn(sizes, dtype) throws runtime_error for integer dtypes and otherwise returns a tensor of the requested shape and floating dtype, writing only inside its own buffer.",
  "all shapes, dtypes and random samples",
  "heap overflow; random contents",
  "src/INNC/tensorImpl.cpp:TensorImpl::randn")
p("C38","Operations do not modify existing tensors",
  "Apart from +=, zero_grad, backward and release, no operation changes the shape, dtype or any element of a tensor that existed before the call, whatever its outcome.",
  "every operation, argument, state and outcome (including throwing)",
  "all operations in all states",
  "src/INNC/tensorImpl.cpp","include/INNC/ops.hpp")
p("C39","In-place addition",
  "a += b for a broadcastable into a's shape adds b elementwise into a; a view's in-place addition is visible through every tensor sharing those cells and changes no other cell; it throws for a gradient-tracked a, leaving everything unchanged.",
  "all shapes, dtypes, views with b stored apart from a",
  "aliasing",
  "src/INNC/tensorImpl.cpp:TensorImpl::operator+=","include/INNC/ops.hpp:tensor_add")
p("C40","In-place addition reduces over broadcast dimensions",
  "When a has size 1 (or a missing dimension) where b is larger, a += b adds to each element of a the sum of all elements of b broadcast onto it. Gradient accumulation relies on this.",
  "all shapes with b's extra extents, all views stored apart",
  "all shape pairs",
  "include/INNC/ops.hpp:tensor_add,tensor_mul_acc_f")
p("C41","Failed in-place addition leaves the tensor unchanged",
  "If a += b throws, a keeps its value.",
  "all a, b",
  "exception paths after partial writes",
  "src/INNC/tensorImpl.cpp:TensorImpl::operator+=")
p("C42","Only floating tensors require gradients, and tracking propagates",
  "In every reachable state a tensor with requires_grad has dtype f32 or f64; requires_grad(true) on an integer tensor throws; the result of a differentiable operation requires grad iff some tensor operand does.",
  "every history of API calls",
  "all histories",
  "src/INNC/tensor.cpp:Tensor::requires_grad","include/INNC/utils/utils.hpp:apply_binary_operator")
p("C43","backward() preconditions",
  "backward() on a tensor that does not require grad, has no backward history, or has more or fewer than one element throws runtime_error and changes nothing.",
  "all states",
  "all states",
  "src/INNC/tensorImpl.cpp:TensorImpl::backward")
p("C44","backward() terminates and processes each node once, consumers first",
  "On any graph, backward() finishes. On a graph not yet traversed by a backward and without intermediates switched to requires_grad(false) (that case is C53), every intermediate reachable from the root is processed exactly once, after all its consumers.",
  "every reachable graph, of any size and sharing",
  "all DAGs; termination",
  "src/INNC/tensorImpl.cpp:refresh_n_outway,TensorImpl::backward","src/INNC/function.cpp:Backward::try_accumulate_update")
p("C45","backward() computes the exact gradient",
  "On a fresh graph built from +, -, *, /, sum, abs, clone, type, cat, slicing, transpose and reshape, backward() adds to every leaf's grad the derivative of the root with respect to that leaf (in exact arithmetic): for every direction, the forward-mode derivative along it equals the inner product of the gradients with it.",
  "all graphs, shapes with broadcasting, sharing, views, values and directions",
  "all computation graphs",
  "src/INNC/function.cpp","src/INNC/tensorImpl.cpp:TensorImpl::backward")
p("C46","Leaf gradients accumulate; zero_grad clears",
  "Backward passes over separately built graphs add up in a shared leaf's grad; zero_grad() sets every element of the existing grad to 0 and leaves all data unchanged.",
  "all pairs of graphs",
  "all histories",
  "src/INNC/function.cpp:Backward::try_accumulate_grad","src/INNC/tensorImpl.cpp:TensorImpl::zero_grad")
p("C47","retain_grad",
  "After backward() on a fresh graph, a processed intermediate's grad() is empty unless retain_grad was set on it; leaves keep theirs.",
  "all graphs",
  "all graphs",
  "src/INNC/tensorImpl.cpp:TensorImpl::backward")
p("C48","A second backward through the same intermediates accumulates again",
  "Calling backward() from two roots that share intermediates (or twice from one root) adds both derivatives to the leaves' grads.",
  "all graphs",
  "needs stateful histories; the repo's own test encodes the opposite",
  "src/INNC/function.cpp:Backward::try_accumulate_update","include/INNC/function.hpp:Backward::is_ready")
p("C49","backward() from a one-element view",
  "backward() started at a one-element slice, transpose or reshape of a gradient-tracked tensor gives that tensor the one-hot gradient.",
  "all views",
  "specific graph shape",
  "src/INNC/tensorImpl.cpp:TensorImpl::backward","src/INNC/function.cpp:NoBack::step_back")
p("C50","Gradient of mean",
  "Backward through mean() multiplies the upstream gradient by 1/numel.",
  "all graphs with mean",
  "depends on upstream gradient",
  "src/INNC/function.cpp:MeanBack::step_back")
p("C51","Gradient of division",
  "Backward through a / b gives da += g/b and db -= g*(a/b)/b, for tracked operands, with either operand possibly a constant or broadcast.",
  "all shapes and tracking combinations",
  "null dereference depends on tracking flags",
  "src/INNC/function.cpp:DivBack::step_back","include/INNC/ops.hpp:tensor_div_back_numerator,tensor_div_back_denominator")
p("C52","max/min on gradient-tracked tensors",
  "max()/min() of a non-empty tracked tensor returns the extremum and backward gives gradient 1 at one extremal position and 0 elsewhere.",
  "all tracked tensors",
  "depends on the position of the extremum",
  "include/INNC/ops.hpp:tensor_max,tensor_min","src/INNC/tensorImpl.cpp:TensorImpl::max")
p("C53","requires_grad(false) on an intermediate cuts only that path",
  "After requires_grad(false) on an intermediate, gradients still flow to leaves along all other paths.",
  "all graphs",
  "graph-shape dependent",
  "src/INNC/tensorImpl.cpp:refresh_n_outway","src/INNC/function.cpp:Backward::try_accumulate_update")
p("C54","Memory safety over histories",
  "In every history of API calls respecting the documented preconditions, no call reads or writes outside a buffer, through a null buffer, at the wrong element type, or reads memory it never initialised.",
  "all histories",
  "all histories",
  "include/INNC/ops.hpp","src/INNC/tensorImpl.cpp","src/INNC/storage.cpp")
p("C55","Shapes too large to represent are rejected",
  "Creating a tensor whose element count does not fit size_t fails instead of returning a tensor with a smaller buffer.",
  "all shapes",
  "sizes near 2^64",
  "src/INNC/layouts.cpp:Layout::numel","src/INNC/tensorImpl.cpp:TensorImpl::create")
p("C56","In-place addition of an overlapping view",
  "a += b equals a_old + b_old even when b is a different view of a's storage (e.g. its transpose).",
  "all views",
  "aliasing",
  "include/INNC/ops.hpp:tensor_add")
p("C57","A slice can be a gradient leaf",
  "Making a slice of an untracked tensor require grad and running backward gives it its gradient without touching memory outside the gradient buffer.",
  "all slices",
  "heap overflow",
  "src/INNC/function.cpp:Backward::try_accumulate_update")
p("C58","backward() changes only gradients",
  "Whatever its outcome, backward() changes no element of any tensor's data that is not a gradient: all forward values, shapes and dtypes stay the same.",
  "all fresh graphs",
  "all graphs",
  "src/INNC/function.cpp","src/INNC/tensorImpl.cpp:TensorImpl::backward")
p("C59","Every call terminates",
  "Every API call finishes (with a result, an exception or undefined behaviour) in every state a program can reach; no loop over a shape or over the graph runs forever.",
  "every history of calls and every further call with any arguments of its C++ types",
  "termination of all loops over unbounded states",
  "include/INNC/utils/utils.hpp:for_each_sizevec","src/INNC/tensorImpl.cpp:TensorImpl::backward,refresh_n_outway")
p("C60","Gradient descent",
  "In exact arithmetic, after t.backward() the calls g = w.grad(); s = g * c; d = w.detach(); d += s; w.zero_grad() for each of several tracked leaves w on separate buffers succeed; they add to every element of w the value of c times the derivative of t, set its gradient to 0, change no tensor on another buffer, and leave a state from which the program can build the next graph.",
  "all programs of the calls that C45 covers, any number of parameters, any rate tensor that broadcasts into their shapes",
  "a statement about whole training loops: in-place writes between graphs, aliasing of a view with its leaf",
  "src/INNC/tensorImpl.cpp:TensorImpl::backward,TensorImpl::zero_grad,TensorImpl::detach","src/INNC/tensor.cpp:operator+=","include/INNC/tensor.hpp")
p("C61","Retained gradients are derivatives",
  "In exact arithmetic, after backward() on a fresh graph the grad() of every intermediate on which retain_grad(true) was called holds the derivative of the root with respect to each element of that intermediate.",
  "all programs of the calls that C45 covers, every intermediate",
  "gradients of a view and of its base share one buffer, so contributions to the base show up in the view",
  "src/INNC/tensorImpl.cpp:TensorImpl::backward,TensorImpl::retain_grad","src/INNC/function.cpp")
p("C62","No ownership cycles",
  "After any sequence of calls no tensor keeps itself alive through a chain of the shared pointers that tensors and backward functions hold (a tensor's gradient, the inputs of its backward function and the slope stored by abs, max and min). Hence in every non-empty group of tensors there is one that no member of the group owns, and dropping all handles frees everything.",
  "all call sequences, including those that throw, every tensor and every group of tensors",
  "graph nodes hold their inputs and tensors hold gradients; a gradient that referred back to its tensor would leak the whole graph",
  "include/INNC/tensorImpl.hpp:TensorImpl","include/INNC/function.hpp:Backward","src/INNC/tensorImpl.cpp","src/INNC/function.cpp")
p("C63","Freed objects do not matter",
  "The outcome of a call, and what it leaves behind for the program, depend only on objects that the handles it is given keep alive; it changes no other object. So freeing tensors and buffers that the program has lost is never observable.",
  "all states, calls and histories",
  "a use after free shows only if the memory has been reused",
  "include/INNC/tensorImpl.hpp:TensorImpl","include/INNC/function.hpp:Backward","src/INNC/tensor.cpp","src/INNC/tensorImpl.cpp","src/INNC/function.cpp")
p("C64","Floats without rounding",
  "As long as comparisons only see numbers that were not rounded, a history in IEEE float and double arithmetic makes the same tensors, views and graph and has the same results as in exact arithmetic, and every element reached without rounding is the exact one. In particular a gradient element reached without rounding is exactly the old gradient plus the derivative.",
  "all histories of calls, float and double",
  "exact gradients are a statement about rational numbers; this carries them over to the numbers that the library computes",
  "src/INNC/types.cpp","include/INNC/types.hpp","src/INNC/tensorImpl.cpp","src/INNC/function.cpp")
p("C65","Flags change only on request",
  "retain_grad() and requires_grad() of a tensor are what the last successful call of retain_grad(b) and requires_grad(b) on it made them; every other call, backward() included, leaves them alone, and a new tensor does not retain its gradient.",
  "all histories of calls, from every state",
  "whether a gradient is kept or computed at all is decided by these flags",
  "src/INNC/tensor.cpp","src/INNC/tensorImpl.cpp","include/INNC/tensorImpl.hpp:TensorImpl")
p("C66","What a pass of backward() reaches and writes",
  "Where every intermediate below the root was never passed or can no longer become ready, backward() processes exactly the intermediates with no such blocked intermediate on any path from the root, once each and consumers first; it changes gradients of operands of these only, and no other buffer that existed before.",
  "all histories of calls and all graphs in such a state",
  "depends on the counters left by earlier passes",
  "src/INNC/tensorImpl.cpp:refresh_n_outway,TensorImpl::backward","src/INNC/function.cpp","include/INNC/function.hpp:Backward::is_ready")
p("C67","Float arithmetic is correctly rounded",
  "Every float and double that a history of calls leaves in a buffer is a number of its format. Each element of a + b, a - b, a * b and a / b in floating point is the exact result rounded to nearest, ties to even, or the infinity of its sign beyond the range; conversions round likewise. sum() of n finite elements differs from the exact sum by at most (1 + 2^-53)^(n-1) - 1 times the sum of the magnitudes unless that is near the end of the range, and mean() rounds the quotient of such a sum by n.",
  "all histories of calls, all finite operands, both formats",
  "says how far a computed number can be from the exact one",
  "src/INNC/types.cpp","include/INNC/types.hpp","src/INNC/tensorImpl.cpp")
p("C68","A gradient has the type and shape of its tensor",
  "After any sequence of calls, when a tensor has a gradient it is another tensor, of the same dtype and shape, laid out like the tensor or densely, and has no backward history of its own.",
  "all histories of calls, all tensors",
  "grad() can be combined with the tensor elementwise without broadcasting",
  "src/INNC/function.cpp:try_accumulate_update","src/INNC/tensorImpl.cpp:share_grad_storage,TensorImpl::backward")
p("C69","Formulas over leaves get their partial derivatives",
  "In exact arithmetic, after any program of Spec/Program.v: computing a formula built from +, -, * and / over floating-point leaves whose shapes broadcast, then its sum() and backward(), raises no error; the sum is that of the formula's values over all positions, and every tracked leaf element's gradient grows by the sum of the formula's partial derivatives over the positions the element is broadcast to. These partial derivatives are the limits of the difference quotients.",
  "all programs, formulas, shapes and element values (quotients as in C51)",
  "the quick start of the documentation does exactly this",
  "docs/quickstart.rst","src/INNC/function.cpp:AddBack,SubBack,MulBack,DivBack,SumBack","src/INNC/tensorImpl.cpp:TensorImpl::backward")
p("C70","What queries answer, and calls on null handles",
  "size(), numel(), type(), requires_grad(), retain_grad() and grad() answer what the tensor is and change nothing; numel() is the number of indices modulo 2^64; is_contiguous() is true exactly when every stride is the number of elements of the dimensions after it. Every call on a null handle save to_string() dereferences it before it changes anything; cat() first checks the inputs before the null one, and throws if these do not fit together.",
  "all states, tensors and calls",
  "programs branch on these answers; grad() may answer a null handle",
  "src/INNC/tensor.cpp:Tensor","src/INNC/layouts.cpp:is_contiguous,numel")
p("C71","release() and what can be done afterwards",
  "release() frees the buffer of the tensor and of every tensor that shares it, and touches no other buffer and no tensor record. Afterwards every call that looks at an element of such a tensor dereferences a null pointer, with one operand or with two.",
  "all states and tensors; calls with one or two operands whose shapes broadcast and have no dimension of size 0",
  "released memory must not be read as if it were there",
  "src/INNC/tensor.cpp:Tensor::release","src/INNC/tensorImpl.cpp:TensorImpl::release","src/INNC/storage.cpp")
p("C72","Training follows gradient descent",
  "In exact arithmetic, for any number of rounds: computing a formula over held leaves (C69), its sum() and backward(), and then updating each parameter by its gradient times a rate (C60), all calls succeed; the sum in round k is the formula's at the k-th iterate of gradient descent, and after n rounds the elements of the leaves are the n-th iterate.",
  "all programs, formulas, shapes, rates, parameters on buffers of their own and numbers of rounds",
  "errors that build up over rounds (stale counters, uncleared gradients, aliased buffers) show only in loops",
  "docs/quickstart.rst","src/INNC/tensorImpl.cpp:TensorImpl::backward,TensorImpl::zero_grad,TensorImpl::detach","src/INNC/tensor.cpp:operator+=","src/INNC/function.cpp")
p("C73","Size and stride vectors print readably",
  "to_string() of a SizeVec or SignedVec, and operator<<, list the decimal forms of the elements in brackets, separated by a comma and a space; the vector can be read back from the text.",
  "all vectors",
  "sizes appear in error messages and are printed by programs",
  "src/INNC/types.cpp:iter_to_string,SizeVec::to_string,SignedVec::to_string")
p("C74","Calls obey the laws of arrays",
  "Transposing or subscripting the result of an elementwise operation equals the operation on the transposed or subscripted operands. Integer addition and multiplication are associative, distribute and cancel, with broadcasting; float addition is not associative. A sum is unchanged by reshaping, and of integers by transposing. Mixed dtypes combine as if both operands were first converted to the common dtype. += on a copy equals +. Cutting a tensor in two and joining the parts with cat() gives it back.",
  "all reachable states, tensors, layouts, dtypes, shapes, subscripts and operators that meet the stated hypotheses",
  "programs are rearranged by such laws; each relates several operations, so that one which is wrong breaks the law even if its own property is stated wrongly",
  "src/INNC/tensorImpl.cpp","include/INNC/ops.hpp","src/INNC/tensor.cpp:operator+=","src/INNC/layouts.cpp")
p("C75","Expressions compute what they denote",
  "An expression over existing tensors, built from arithmetic, comparisons, negation, conversions, copies, sums, means, transposes, subscripts, reshapes and cat, evaluated by the public calls with operands first, ends in a tensor that holds the array the expression denotes, with its dtype, shape and tracking, and changes no existing array. If the arithmetic of some element is undefined in C++, so is the evaluation. Expressions that denote the same array compute the same array.",
  "all expressions, reachable states and leaves; shapes, subscripts and sizes as the library accepts them; leaves with strides below 2^63 in buffers of fewer than 2^62 elements",
  "single calls are right in isolation only if the tensors they return meet what later calls demand of layouts and buffers; composition is what users rely on",
  "src/INNC/tensorImpl.cpp","include/INNC/ops.hpp","src/INNC/layouts.cpp","src/INNC/utils/utils.cpp")
p("C76","backward() differentiates expressions",
  "A program evaluates an expression over tensors it holds and calls backward() on the result, which has one element. The evaluation yields the denoted array, backward() succeeds, and to each element of the gradient of each tracked leaf it adds, in exact arithmetic, the slope of the denotation as a function of that element of the leaf. Leaves that do not occur get 0. The state afterwards is that of a program again, so the statement applies to further expressions.",
  "all programs, expressions, leaves and elements in exact arithmetic; tracked arrays are not compared, a tracked mean comes last, a tracked quotient is as in C51 and its denominators are not 0",
  "gradients are specified by the function the user wrote, without reference to the graph that the calls record",
  "src/INNC/function.cpp","src/INNC/tensorImpl.cpp","include/INNC/ops.hpp","include/INNC/function.hpp")
p("C77","Gradient descent on expressions",
  "A program that holds leaves evaluates an expression, calls backward() on the result, which has one element, and for each parameter adds rate * gradient to its data and clears the gradient. All of these calls succeed; in exact arithmetic each element of a parameter moves by the rate times the slope of the denotation as a function of that element, and the other leaves keep their elements. As long as the expression stays defined and smooth along the descent, any number of rounds can be run: each yields the array denoted at that point, and in the end the leaves hold the arrays that gradient descent leads to.",
  "all programs, expressions, parameters, rates and numbers of rounds in exact arithmetic; the parameters are tracked leaves that occur in the expression, and no other held tensor is on their buffers",
  "a training loop over any expression of the library is gradient descent on the function the user wrote",
  "src/INNC/function.cpp","src/INNC/tensorImpl.cpp","include/INNC/ops.hpp","include/INNC/function.hpp")
p("C78","Training on least squares converges to the minimum",
  "Train w on the sum of (x * w - y) * (x * w - y), where x, w and y may be broadcast, in exact arithmetic. Let the solution for an element of w be the sum of x * y divided by the sum of x * x, over the positions where that element is read. Each round multiplies the distance of the element from its solution by 1 + 2 * rate * (sum of x * x). With other elements of w than the solutions the sum is greater by their squared distances from the solutions, each times its sum of x * x. If all of these factors are below 1 in absolute value, then for every bound there is a number of rounds after which every element of w is within it of its solution; if a factor is above 1, an element that is not its solution already moves away from it beyond every bound.",
  "all programs, tensors, rates, bounds and numbers of rounds in exact arithmetic; w is a tracked leaf, no other held tensor is on its buffer, and no sum of x * x is 0",
  "the library does what it is for: a model trained with it converges to the best fit",
  "src/INNC/function.cpp","src/INNC/tensorImpl.cpp","include/INNC/ops.hpp","include/INNC/function.hpp")
p("C79","Gradients of several expressions add up",
  "Evaluate any number of expressions over the same leaves one after the other, each with one element and smooth where it is evaluated, with backward() on each result and no zero_grad() in between, in exact arithmetic. All of these calls succeed and leave the data of the leaves alone, and the gradient of each element of a tracked leaf grows by the derivative of the sum of the results with respect to that element. The order of the expressions does not matter.",
  "all programs, all finite lists of expressions of C75 to which backward() applies, and all leaves in exact arithmetic",
  "training on batches accumulates gradients over several losses",
  "src/INNC/function.cpp","src/INNC/tensorImpl.cpp","include/INNC/function.hpp")
with open(os.path.join(os.path.dirname(__file__),"..","properties.jsonl"),"w") as f:
    for x in P: f.write(json.dumps(x)+"\n")
print(len(P))
