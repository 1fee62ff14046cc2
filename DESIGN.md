# Formal model of INNC in Rocq/Coq 8.16: design

## What is modelled and how

The model (`rocq/theories/Model/*.v`) is an executable Gallina transcription of
INNC, function by function, over an explicit heap:

| file | models |
|---|---|
| `Machine.v` | outcomes (value / C++ exception / undefined behaviour), the state monad, `size_t` and `long long` wrap-around |
| `Types.v` | `types.hpp`: dtypes, promotion, C++ conversions and arithmetic on elements; the interface `FOps` of floating-point operations |
| `Ieee.v`, `Exact.v` | two instances of `FOps`: IEEE binary32/64 (stdlib `SpecFloat`), and exact rationals (`Qc`) |
| `Layout.v` | `layouts.cpp`: strided layouts, numel, index to cell |
| `Heap.v` | `storage.cpp`, the fields of `TensorImpl` and `Backward` |
| `Utils.v` | `utils.cpp/.hpp`: splitting, trimming, `stoll`, `broadcast_range`, `for_each_sizevec` |
| `VecText.v` | `types.cpp`: the text of size and stride vectors |
| `Ops.v` | `ops.hpp`: all native kernels |
| `Impl.v` | `tensorImpl.cpp` except autograd |
| `Autograd.v` | `function.cpp`, `refresh_n_outway`, `TensorImpl::backward` |
| `Api.v` | `tensor.cpp`, `TensorInit`; the operation type `op`, `step`, `run` |

* A C++ call is a function `heap -> outcome A * heap`. The heap is returned on
  exceptions too, so partial effects of a throwing call are visible.
* Undefined behaviour is an outcome (`UB kind`): out of bounds, null
  dereference, reading uninitialised memory, signed overflow, integer division
  by zero, unrepresentable float-to-int conversion, invalid `bool` byte, bad
  dispatch table index.
* `size_t` arithmetic wraps modulo 2^64 and is written into the model.
* Element values: `VI z` or `VF f`, where `f : F` and `F` with its operations is
  a parameter (`FOps`). Theorems about shapes, aliasing, control flow and
  elementwise meaning hold for every `FOps`, in particular the IEEE instance.
  The gradient theorems need field laws, so they are about the instance `Exact`
  (canonical rationals, stdlib `Qc`): no rounding, no NaN, no overflow. C64
  carries them over to the IEEE instance for every number that was reached
  without rounding; C67 says what rounding does.
* `for_each_sizevec` and the other odometer loops are modelled as loops with a
  binary fuel that is proved sufficient.

## Not modelled

`shared_ptr` counts and temporaries (the model never frees; C62 and C63 show
that freeing what the program has lost is possible and not observable;
`release()` is modelled), allocation failure below 2^47 bytes, exception message text,
concurrency (the library has none), the compile-time reflection in `types.hpp`,
`sparse` layouts (never constructed), `pythonic/`, NaN payloads, the random
generator (samples are an input).

## Trusted base

* Coq's kernel (8.16.1), and its virtual machine for the examples and
  refutations that are evaluated (`vm_compute`, `<:` casts).
* Axioms: none. `Print Assumptions` stands under every theorem in
  `theories/Props` and prints "Closed under the global context" for each.
  `std++` is used as a library of definitions and lemmas; it adds no axioms.
* That the model says what the code does. Each definition in `Model/` cites the
  lines it transcribes; `Tests/Regress.v` evaluates the model on the
  repository's own test cases. The code itself was read, not run.
* The statements in `Props/` and the vocabulary in `Spec/`. `Spec/` does not
  use the model's loops: arrays are functions from indices to values, graphs
  are relations, derivatives are given by the rules of calculus and by limits.

## Layout of the proofs

* `Spec/`: what is asked for. `Tensor`, `Result` (a tensor holds an array),
  `Elem`, `Broadcast`, `Index`, `Slice`, `Cat`, `Reduce`, `Reshape`, `Init`,
  `Inplace`, `View`, `Chain` (views), `Frame`, `Text`,
  `Sized` (arguments that are `size_t`), `Graph` (nodes, `below`), `Deriv`
  (rules of calculus), `Program` (the programs that backward differentiates),
  `Slope` (limits of difference quotients), `Safe` (memory errors, careful calls),
  `Part` (words for the parts that hold of properties that fail),
  `Accept`, `Lenient`, `Refuse`, `Sequential` (what exactly is accepted, read,
  refused and written), `Bytes` and `Decimal` (float formats and their text),
  `Stale` and `Cut` (graphs walked before, graphs with untracked parts),
  `Watch` (IEEE results with exact values beside them), `Formula` (formulas
  over tensors and their partial derivatives), `Query` (contiguity, released buffers),
  `Descent` and `Train` (updates, rounds of training), `Fit` (least squares), `ExprSum` (several losses),
  `Vector` (reading vectors), `Law` (laws between calls), `Expr`, `ExprGrad` and
  `ExprStep` (expressions, their slopes, descent on them).
* `Proofs/`: lemmas. No statement there is a claim by itself.
* `Props/Pnn_*.v`: the claims only. Each theorem is closed by `exact`, has
  `Print Assumptions` under it and an `Example` that meets its hypotheses.
* Names: `Cxx_partial` proves part of property Cxx and the comment says what is
  missing; `Cxx_refuted` shows a reachable state where Cxx fails.
* `tools/mutate.py` edits a definition of the model in a copy, rebuilds, and
  reports which claims break; `seeded/LOG.jsonl` records every attempt.

## Properties

For each property of `properties.jsonl`: how it is modelled and proved.

| id | approach |
|---|---|
| C01 | `for_each` loop = left-to-right run over the row-major index list (induction on the odometer) |
| C02 | row-major position lemma for `contig`; injectivity and bounds by induction on the shape |
| C03, C04 | generic lemma: a loop of stores at injective positions sets exactly those cells |
| C05, C06 | separate NumPy-style spec of compatibility; induction on reversed shapes; exact acceptance for all shapes (Spec/Accept.v); refutation for zero-sized dimensions |
| C07-C10, C14 | elementwise theorem for the generic binary kernel, instantiated per operator |
| C11 | commutation of element arithmetic under swap, lifted by the elementwise theorem |
| C12 | finite case analysis over dtypes |
| C13 | elementwise theorem for `0 - a`; on IEEE floats 0 - x is -x but for the zeros; dtype refuted for i8/i16 |
| C15, C16 | `all` loop vs `Forall`; for C16 the loop over bytes, whose patterns a decoder of the IEEE formats defines (`Spec/Bytes`); refutation for wider dtypes by computation |
| C17, C18 | separate Python-slice spec (list of selected indices); string-level theorem through printer/parser round trip; what every text, well-formed or not, is taken for (`items_read`, Spec/Lenient.v) |
| C19, C20, C24, C25 | view maps: every view operation is a composition with an injective in-range index map; invariant by induction over view chains |
| C21 | arithmetic on `regularize_size`; exactly which vectors throw (`refuses`, Spec/Refuse.v); refutations with wrap-around |
| C22, C23, C38 | frame theorems: old storages and tensors unchanged; fresh storage id |
| C26, C27 | sum loop = fold over row-major elements |
| C28, C29, C52 | fold invariant started from the first cell of the buffer (`Reduce`, `Extremum`, `Part4`); refutations by computation |
| C30, C31 | elementwise; out of bounds as soon as a position exceeds the element count (`Part3`) |
| C32 | conversion lemmas + elementwise |
| C33 | induction over inputs, positions in disjoint slabs |
| C34, C35 | structural induction, with one case for each outcome of a nesting (rectangular, no children, mismatched, unassigned); injectivity of decimal printing; a reader for printed numbers (`Spec/Decimal`) |
| C36, C37 | direct |
| C39-C41, C56 | accumulation lemma for loops writing non-injectively; the whole of += as one pass over the cells (`add_pass`, Spec/Sequential.v); refutations |
| C42 | invariant over `run` |
| C54 | invariant over `run` of histories of careful calls: every held tensor lies in a typed, initialised buffer, every gradient fits, operands of quotients are tracked (`Safe1`-`Safe10`); a checker evaluates the demands on concrete histories (`SafeEx`) |
| C43 | case analysis |
| C44, C47, C58 | loop invariant of `backward`: counts of processed edges; frame conditions |
| C45 | potential argument: the pairing of gradients with a tangent is conserved by each step (`Pot`, `Ginv`, `Gback`, `Grad`); an invariant of whole programs establishes its preconditions (`Prog`-`Prog8`); the tangent is the limit of difference quotients (`Calculus`, `Prog9`) |
| C46 | C45 applied twice; the data that the second graph reads are unchanged (`Prog10`) |
| C60 | an in-place write keeps the invariant of programs when no held graph reads the buffer (`ProgW`); the calls of an update satisfy it (`Step`) |
| C50 | refutation by computation; the potential argument of C45 with every mean below the root as a source of its own, and the tangent with the means held fast, corrected by one tangent per mean (`Mean`) |
| C61 | the potential argument of C45 with the intermediate kept in the potential and a tangent cut there (`Retained`); for a view, the buffer of its base's gradient is followed after the base drops it: no later step writes it (`Kept`); refutation by computation (`RetainedEx`) |
| C62, C68 | invariant of all calls: inputs are older than their result; gradients and stored slopes have no backward function, and a gradient is newer than its owner, with its type and shape (`Own`) |
| C63 | two states that agree on a set of objects closed under ownership: every primitive reads and writes inside it, new objects join it (`Alive`) |
| C55 | byte counts modulo 2^64 decide between throwing and a wrapped buffer (`Part1`) |
| C51, C52 gradients | refutation by computation; the chain rule at a leaf used by one node only (`Local`) |
| C48, C53 | refutation by computation; C48 also C46 with equal roots; for both also the invariant of C45 along the order of C66, with the nodes below a cut or a passed node held fast (`Spec/Cut`); both, and constants and broadcast denominators in C51 (`Wide`), follow C66 |
| C49 | refutation by computation; the potential argument of C45 with no source at the root (`Vroot`) |
| C64 | an instance that computes IEEE results and keeps exact values beside them (`Spec/Watch`); the model is parametric in `FOps`: related instances give related histories (`Rel1`-`Rel5`) |
| C69 | induction over the formula: its calls extend the program, the tangent of C45 along one leaf element is the partial derivative at each position (`Formula`) |
| C72 | one round is C69 followed by C60 and keeps what a round needs; induction over the rounds (`Train`) |
| C73 | induction over the vector and the digits (`VecText`) |
| C74 | the theorems on single calls, applied one after the other; an old tensor keeps its contents through later calls; congruences modulo 2^width for integers (`Law`-`Law3`) |
| C75 | each call on arrays gives the array of its denotation in a layout that later calls accept (`Expr`); the layout and buffer of a reshaped tensor (`ReshapeLay`); induction on the expression |
| C76 | the graph that the calls of an expression leave (`ExprGrad`–`ExprGrad3`), its nodes are new and its values are those of the denotation with a leaf element moved (`ExprGrad4`, `ExprGrad5`); then C45 and C69 apply (`ExprGrad6`) |
| C77 | C60 and C76 at the tensor an expression computes, with `same_len` of `Sto` for the buffers afterwards (`ExprStep`); what is accepted depends only on types, shapes and tracking, so rounds compose |
| C78 | closed form of the iterated descent of C72; the sum splits by the elements of w, so the cross term at the solution is 0; powers of numbers below 1 tend to 0 and those of numbers above 1 grow (`Fit`) |
| C79 | induction over the expressions: C76 for each, and neither evaluation nor backward() touches the data of the leaves; slopes add, and are unique, so the order does not matter (`ExprSum`) |
| C70 | unfolding; strides against suffix products for is_contiguous(). `cat` checks the inputs before the first null one, in the code's order (`Query`) |
| C71 | the first element that a loop reads is in the released buffer (`Query`) |
| C65 | every call but the two setters keeps the flags of existing tensors: an invariant with the flags as parameters (`Flags`) |
| C66 | the order argument of C44 with nodes of any counter state that cannot become ready (`Stale`), and the frame of one step narrowed to its operands' gradients (`Frame4`) |
| C67 | `SpecFloat`'s algorithms proved to round to nearest (`Round`); valid floats as a relation of the IEEE instance with itself (`Round2`); error of a sum by induction over the rounded additions (`Round3`) |
| C57 | the program invariant for dense leaves; the accumulation loop stops at the first element outside the buffer (`Leaf`) |
