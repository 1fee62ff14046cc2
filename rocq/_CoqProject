-Q theories Verif
theories/Model/Api.v
theories/Model/Autograd.v
theories/Model/Exact.v
theories/Model/Heap.v
theories/Model/Ieee.v
theories/Model/Impl.v
theories/Model/Layout.v
theories/Model/Machine.v
theories/Model/Ops.v
theories/Model/Types.v
theories/Model/Utils.v
theories/Model/VecText.v
theories/Tests/Regress.v
theories/Spec/Accept.v
theories/Spec/Alive.v
theories/Spec/Broadcast.v
theories/Spec/Bytes.v
theories/Spec/Calls.v
theories/Spec/Cat.v
theories/Spec/Chain.v
theories/Spec/Cut.v
theories/Spec/Decimal.v
theories/Spec/Deriv.v
theories/Spec/Descent.v
theories/Spec/Elem.v
theories/Spec/Expr.v
theories/Spec/ExprGrad.v
theories/Spec/ExprStep.v
theories/Spec/ExprSum.v
theories/Spec/Fit.v
theories/Spec/Flags.v
theories/Spec/Formula.v
theories/Spec/Frame.v
theories/Spec/Grad.v
theories/Spec/Graph.v
theories/Spec/Index.v
theories/Spec/Init.v
theories/Spec/Inplace.v
theories/Spec/Law.v
theories/Spec/Lenient.v
theories/Spec/Own.v
theories/Spec/Part.v
theories/Spec/Program.v
theories/Spec/Query.v
theories/Spec/Reduce.v
theories/Spec/Refuse.v
theories/Spec/Reshape.v
theories/Spec/Result.v
theories/Spec/Round.v
theories/Spec/Safe.v
theories/Spec/Sequential.v
theories/Spec/Sized.v
theories/Spec/Slice.v
theories/Spec/Slope.v
theories/Spec/Stale.v
theories/Spec/Tensor.v
theories/Spec/Text.v
theories/Spec/Train.v
theories/Spec/Vector.v
theories/Spec/View.v
theories/Spec/Watch.v
theories/Proofs/Abs.v
theories/Proofs/AgainEx.v
theories/Proofs/Alive.v
theories/Proofs/AliveEx.v
theories/Proofs/Api1.v
theories/Proofs/Api2.v
theories/Proofs/Api3.v
theories/Proofs/Api4.v
theories/Proofs/Basics.v
theories/Proofs/Bgeom.v
theories/Proofs/Binary.v
theories/Proofs/BroadcastLemmas.v
theories/Proofs/Bsteps.v
theories/Proofs/Bytes.v
theories/Proofs/BytesEx.v
theories/Proofs/Calculus.v
theories/Proofs/Cat.v
theories/Proofs/Catgeom.v
theories/Proofs/Cells.v
theories/Proofs/Chain.v
theories/Proofs/Chain2.v
theories/Proofs/ChainEx.v
theories/Proofs/Check.v
theories/Proofs/Compare.v
theories/Proofs/Copies.v
theories/Proofs/Create.v
theories/Proofs/Creation.v
theories/Proofs/Cut.v
theories/Proofs/Cut2.v
theories/Proofs/Cut3.v
theories/Proofs/CutEx.v
theories/Proofs/Decimal.v
theories/Proofs/ElemLemmas.v
theories/Proofs/Expr.v
theories/Proofs/ExprEx.v
theories/Proofs/ExprGrad.v
theories/Proofs/ExprGrad2.v
theories/Proofs/ExprGrad3.v
theories/Proofs/ExprGrad4.v
theories/Proofs/ExprGrad5.v
theories/Proofs/ExprGrad6.v
theories/Proofs/ExprGradEx.v
theories/Proofs/ExprStep.v
theories/Proofs/ExprStepEx.v
theories/Proofs/ExprSum.v
theories/Proofs/ExprSumEx.v
theories/Proofs/Extremum.v
theories/Proofs/Fit.v
theories/Proofs/FitEx.v
theories/Proofs/Flags.v
theories/Proofs/Floats.v
theories/Proofs/Formula.v
theories/Proofs/FormulaEx.v
theories/Proofs/Frame.v
theories/Proofs/Frame2.v
theories/Proofs/Frame3.v
theories/Proofs/Frame4.v
theories/Proofs/Gback.v
theories/Proofs/Ginv.v
theories/Proofs/Grad.v
theories/Proofs/Graph.v
theories/Proofs/IndexLemmas.v
theories/Proofs/Init.v
theories/Proofs/InitEx.v
theories/Proofs/Inplace.v
theories/Proofs/InplaceEx.v
theories/Proofs/Inv.v
theories/Proofs/Inv2.v
theories/Proofs/Inv3.v
theories/Proofs/Kept.v
theories/Proofs/Kernels.v
theories/Proofs/Later.v
theories/Proofs/Law.v
theories/Proofs/Law2.v
theories/Proofs/Law3.v
theories/Proofs/LawEx.v
theories/Proofs/Leaf.v
theories/Proofs/Leaf2.v
theories/Proofs/LeafEx.v
theories/Proofs/Local.v
theories/Proofs/LocalEx.v
theories/Proofs/Mean.v
theories/Proofs/MeanEx.v
theories/Proofs/Neg.v
theories/Proofs/Nodes.v
theories/Proofs/Odometer.v
theories/Proofs/Order.v
theories/Proofs/Order2.v
theories/Proofs/Order3.v
theories/Proofs/Order4.v
theories/Proofs/OrderEx.v
theories/Proofs/Orders.v
theories/Proofs/Own.v
theories/Proofs/OwnEx.v
theories/Proofs/Part1.v
theories/Proofs/Part2.v
theories/Proofs/Part3.v
theories/Proofs/Part4.v
theories/Proofs/PartEx.v
theories/Proofs/Pot.v
theories/Proofs/Prog.v
theories/Proofs/Prog10.v
theories/Proofs/Prog2.v
theories/Proofs/Prog3.v
theories/Proofs/Prog4.v
theories/Proofs/Prog5.v
theories/Proofs/Prog6.v
theories/Proofs/Prog7.v
theories/Proofs/Prog8.v
theories/Proofs/Prog9.v
theories/Proofs/ProgEx.v
theories/Proofs/ProgW.v
theories/Proofs/Qsum.v
theories/Proofs/Query.v
theories/Proofs/QueryEx.v
theories/Proofs/Reduce.v
theories/Proofs/Refute1.v
theories/Proofs/Refute2.v
theories/Proofs/Reject.v
theories/Proofs/Rel1.v
theories/Proofs/Rel2.v
theories/Proofs/Rel3.v
theories/Proofs/Rel4.v
theories/Proofs/Rel5.v
theories/Proofs/Reshape.v
theories/Proofs/Reshape2.v
theories/Proofs/Reshape3.v
theories/Proofs/ReshapeEx.v
theories/Proofs/ReshapeLay.v
theories/Proofs/Retained.v
theories/Proofs/RetainedEx.v
theories/Proofs/Round.v
theories/Proofs/Round2.v
theories/Proofs/Round3.v
theories/Proofs/RoundEx.v
theories/Proofs/Safe1.v
theories/Proofs/Safe10.v
theories/Proofs/Safe2.v
theories/Proofs/Safe3.v
theories/Proofs/Safe4.v
theories/Proofs/Safe5.v
theories/Proofs/Safe6.v
theories/Proofs/Safe7.v
theories/Proofs/Safe8.v
theories/Proofs/Safe9.v
theories/Proofs/SafeEx.v
theories/Proofs/Samples.v
theories/Proofs/Sequential.v
theories/Proofs/Slice.v
theories/Proofs/Slice2.v
theories/Proofs/Slice3.v
theories/Proofs/Slice4.v
theories/Proofs/SliceText.v
theories/Proofs/Stale.v
theories/Proofs/Stale2.v
theories/Proofs/StaleEx.v
theories/Proofs/Step.v
theories/Proofs/StepEx.v
theories/Proofs/Sto.v
theories/Proofs/StoAll.v
theories/Proofs/Tangent.v
theories/Proofs/Terminate.v
theories/Proofs/Terminate2.v
theories/Proofs/Terminate3.v
theories/Proofs/Terminate4.v
theories/Proofs/Text.v
theories/Proofs/Track.v
theories/Proofs/Train.v
theories/Proofs/TrainEx.v
theories/Proofs/VecText.v
theories/Proofs/Version.v
theories/Proofs/View.v
theories/Proofs/Visit.v
theories/Proofs/Vroot.v
theories/Proofs/VrootEx.v
theories/Proofs/Watch.v
theories/Proofs/Watch2.v
theories/Proofs/WatchEx.v
theories/Proofs/Wide.v
theories/Proofs/Wp.v
theories/Proofs/ZeroGrad.v
theories/Props/P01_Arrays.v
theories/Props/P02_Elementwise.v
theories/Props/P03_Whole.v
theories/Props/P04_Refuted.v
theories/Props/P05_Views.v
theories/Props/P06_Tracking.v
theories/Props/P07_Slice.v
theories/Props/P08_Inplace.v
theories/Props/P09_Reshape.v
theories/Props/P10_Init.v
theories/Props/P11_Chain.v
theories/Props/P12_Order.v
theories/Props/P13_Gradient.v
theories/Props/P14_Text.v
theories/Props/P15_Safe.v
theories/Props/P16_Parts.v
theories/Props/P17_Descent.v
theories/Props/P18_Retained.v
theories/Props/P19_Ownership.v
theories/Props/P20_Mean.v
theories/Props/P21_Local.v
theories/Props/P22_Lifetime.v
theories/Props/P23_Leaf.v
theories/Props/P24_ViewRoot.v
theories/Props/P25_Rounding.v
theories/Props/P26_Flags.v
theories/Props/P27_Stale.v
theories/Props/P28_Float.v
theories/Props/P29_Cut.v
theories/Props/P30_Formula.v
theories/Props/P31_Query.v
theories/Props/P32_Train.v
theories/Props/P33_Vector.v
theories/Props/P34_Laws.v
theories/Props/P35_Expr.v
theories/Props/P36_ExprGrad.v
theories/Props/P37_ExprStep.v
theories/Props/P38_Fit.v
theories/Props/P39_ExprSum.v
