(** Tests, not proofs: the expectations of /repo/test/test.cpp (gtest, cited by
    line) evaluated on the model with IEEE floats. They check that the model was
    read correctly. Cases are the repository's own, a few of them split or shortened;
    left out are its sformat test (713-715) and pure repetitions. *)
From Verif.Model Require Import Api Ieee.
From Coq Require Import Floats.SpecFloat.
Local Open Scope string_scope.

Definition str (s : string) : list ascii := String.list_ascii_of_string s.
Definition ints (l : list Z) : list val := map VI l.
Definition d8 := ints [1; -3; -5; 7; -9; 11].            (* test.cpp:8 *)
Definition d16_1 := ints [0; -2; 4; 6; 8; -10].          (* test.cpp:9 *)
Definition d16_2 := ints [0; 1; 2; 3; 4; 5; 6; 7; 8; 9; 10; 11].
Definition i8_t ss := from_blob d8 ss I8.
Definition i16_1 ss := from_blob d16_1 ss I16.
Definition i16_2 ss := from_blob d16_2 ss I16.
Definition slice t s := op_slice t (str s).
Definition out {A} (m : E A) : outcome A := fst (m empty_heap).
Definition show (m : E nat) : outcome string := out (let! t := m in impl_to_string t).
Definition size (m : E nat) : outcome (list Z) :=
  out (let! t := m in let! r := get_ten t in mret (sizes (t_lay r))).
Definition rgrad (t : nat) : E unit := set_requires_grad t true.
Definition retain (t : nat) : E unit := let! r := get_ten t in set_ten t (with_ret r true).
Definition grad_str (t : nat) : E string :=
  let! r := get_ten t in
  match t_grad r with None => mret "[]" | Some g => impl_to_string g end.
Definition dbl (z : Z) : F := ieee_of_Z FT64 z.

(* 27-48 *)
Example t_zeros : show (zeros [1; 2; 3] I8) = Ok "[[[0, 0, 0], [0, 0, 0]]]". Proof. vm_compute; reflexivity. Qed.
Example t_zeros_f : show (zeros [1; 1] F32) = Ok "[[0.000000]]". Proof. vm_compute; reflexivity. Qed.
Example t_ones : show (ones [1; 2; 3] I32) = Ok "[[[1, 1, 1], [1, 1, 1]]]". Proof. vm_compute; reflexivity. Qed.
Example t_ones_f : show (ones [2; 1; 1] F32) = Ok "[[[1.000000]], [[1.000000]]]". Proof. vm_compute; reflexivity. Qed.
(* 49-62 *)
Example t_blob : show (i8_t [2; 3]) = Ok "[[1, -3, -5], [7, -9, 11]]". Proof. vm_compute; reflexivity. Qed.
Example t_scalar : show (create_scalar I32 (VI 3)) = Ok "3". Proof. vm_compute; reflexivity. Qed.
(* -3.14 = -7070651414971679 * 2^-51 *)
Example t_scalar_d :
  show (create_scalar F64 (VF (S754_finite true 7070651414971679 (-51)))) = Ok "-3.140000".
Proof. vm_compute; reflexivity. Qed.
(* 65-81 *)
Example t_full_sum : show (let! a := full_int [2; 3; 3] (-1) I32 in op_sum a) = Ok "-18". Proof. vm_compute; reflexivity. Qed.
Example t_full_d : show (let! a := full_double [1] (dbl (-2)) F64 in op_sum a) = Ok "-2.000000". Proof. vm_compute; reflexivity. Qed.
Example t_full_0 : show (full_double [0] (dbl (-2)) F64) = Ok "[]". Proof. vm_compute; reflexivity. Qed.
Example t_eye0 : show (eye 0 0 I8) = Ok "[]". Proof. vm_compute; reflexivity. Qed.
Example t_eye3 : show (eye 3 3 I8) = Ok "[[1, 0, 0], [0, 1, 0], [0, 0, 1]]". Proof. vm_compute; reflexivity. Qed.
Example t_eye23 : show (eye 2 3 F32) =
  Ok "[[1.000000, 0.000000, 0.000000], [0.000000, 1.000000, 0.000000]]". Proof. vm_compute; reflexivity. Qed.
(* 84-98 *)
Definition lf l := TLeaf I32 (ints l).
Definition init (t : tinit) : E ret := exec (OInit t).
Definition init_str (t : tinit) : outcome ret :=
  out (let! r := init t in match r with RHandle h => exec (QToString h) | _ => mret r end).
Example t_init : init_str (lf [1; 2; 3]) = Ok (RString "[1, 2, 3]"). Proof. vm_compute; reflexivity. Qed.
Example t_init0 : init_str (TNode []) = Ok (RString "[]"). Proof. vm_compute; reflexivity. Qed.
Example t_init3 : init_str (TNode [TNode [lf [1; 2]; lf [3; 4]; lf [5; 5]]]) =
  Ok (RString "[[[1, 2], [3, 4], [5, 5]]]"). Proof. vm_compute; reflexivity. Qed.
Example t_init_ragged : out (init (TNode [lf [1; 2; 3]; lf [4; 5]])) = Throw InvalidArgument. Proof. vm_compute; reflexivity. Qed.
Example t_init_mixed :
  out (init (TNode [TLeaf F64 [VF (dbl 1); VF (dbl 2)]; lf [4; 5]])) = Throw InvalidArgument.
Proof. vm_compute; reflexivity. Qed.
(* 100-109 *)
Example t_type : show (let! a := i8_t [2; 3] in to_dtype a I64) = Ok "[[1, -3, -5], [7, -9, 11]]". Proof. vm_compute; reflexivity. Qed.
Example t_type_rt :
  show (let! a := from_blob (ints [-3]) [1] I8 in let! b := to_dtype a F64 in to_dtype b I8) = Ok "[-3]".
Proof. vm_compute; reflexivity. Qed.
(* 111-137 *)
Definition cmp1 (c : cop) (dt : dtype) : outcome string :=
  show (let! a := i8_t [2; 3] in let! a := to_dtype a dt in
        let! one := create_scalar I32 (VI 1) in op_cmp c a one).
Example t_lt : cmp1 CLt I64 = Ok "[[0, 1, 1], [0, 1, 0]]". Proof. vm_compute; reflexivity. Qed.
Example t_gt : cmp1 CGt I64 = Ok "[[0, 0, 0], [1, 0, 1]]". Proof. vm_compute; reflexivity. Qed.
Example t_eq : cmp1 CEq I64 = Ok "[[1, 0, 0], [0, 0, 0]]". Proof. vm_compute; reflexivity. Qed.
Example t_ge : cmp1 CGe F32 = Ok "[[1, 0, 0], [1, 0, 1]]". Proof. vm_compute; reflexivity. Qed.
Example t_le : cmp1 CLe I64 = Ok "[[1, 1, 1], [0, 1, 0]]". Proof. vm_compute; reflexivity. Qed.
Example t_ne : cmp1 CNe I16 = Ok "[[0, 1, 1], [1, 1, 1]]". Proof. vm_compute; reflexivity. Qed.
Example t_all : out (let! a := i8_t [2; 3] in let! a := to_dtype a I64 in
  let! b := to_dtype a F64 in let! c := op_cmp CEq a b in op_all c) = Ok true. Proof. vm_compute; reflexivity. Qed.
Example t_not_all : out (let! a := i8_t [2; 3] in
  let! one := create_scalar I32 (VI 1) in let! c := op_cmp CLt a one in op_all c) = Ok false. Proof. vm_compute; reflexivity. Qed.
(* 139-162 *)
Example t_add : show (let! a := ones [2; 3] I16 in let! b := ones [2; 3] I32 in
  let! c := op_add a b in op_add a c) = Ok "[[3, 3, 3], [3, 3, 3]]". Proof. vm_compute; reflexivity. Qed.
Example t_add_throw : out (let! a := ones [1] I64 in let! a := slice a "4:5" in
  let! b := ones [1] I32 in op_add a b) = Throw RuntimeError. Proof. vm_compute; reflexivity. Qed.
Definition bc (f : nat -> nat -> E nat) : outcome string :=
  show (let! a := i8_t [3; 1; 2; 1] in let! b := i16_1 [3; 1; 2] in f a b).
Example t_add_bc : bc op_add = Ok
  "[[[[1, -1], [-3, -5]], [[5, 7], [1, 3]], [[9, -9], [5, -13]]], [[[-5, -7], [7, 5]], [[-1, 1], [11, 13]], [[3, -15], [15, -3]]], [[[-9, -11], [11, 9]], [[-5, -3], [15, 17]], [[-1, -19], [19, 1]]]]".
Proof. vm_compute; reflexivity. Qed.
(* 164-184 *)
Example t_sub_bc : bc op_sub = Ok
  "[[[[1, 3], [-3, -1]], [[-3, -5], [-7, -9]], [[-7, 11], [-11, 7]]], [[[-5, -3], [7, 9]], [[-9, -11], [3, 1]], [[-13, 5], [-1, 17]]], [[[-9, -7], [11, 13]], [[-13, -15], [7, 5]], [[-17, 1], [3, 21]]]]".
Proof. vm_compute; reflexivity. Qed.
Example t_neg : show (let! a := i8_t [3; 2] in op_neg a) = Ok "[[-1, 3], [5, -7], [9, -11]]". Proof. vm_compute; reflexivity. Qed.
(* 186-206 *)
Example t_mul : show (let! a := i8_t [2; 3] in let! b := i16_1 [2; 3] in
  let! c := op_mul a b in op_mul a c) = Ok "[[0, -18, 100], [294, 648, -1210]]". Proof. vm_compute; reflexivity. Qed.
Example t_mul_bc : bc op_mul = Ok
  "[[[[0, -2], [0, 6]], [[4, 6], [-12, -18]], [[8, -10], [-24, 30]]], [[[0, 10], [0, -14]], [[-20, -30], [28, 42]], [[-40, 50], [56, -70]]], [[[0, 18], [0, -22]], [[-36, -54], [44, 66]], [[-72, 90], [88, -110]]]]".
Proof. vm_compute; reflexivity. Qed.
(* 208-227 *)
Example t_div : show (let! a := i8_t [2; 3] in let! b := create_scalar I32 (VI 3) in op_div a b) =
  Ok "[[0, -1, -1], [2, -3, 3]]". Proof. vm_compute; reflexivity. Qed.
Example t_div_mul : show (let! a := i8_t [2; 3] in let! a := to_dtype a F64 in
  let! b := i16_1 [2; 3] in let! c := op_div b a in op_mul c a) =
  Ok "[[0.000000, -2.000000, 4.000000], [6.000000, 8.000000, -10.000000]]". Proof. vm_compute; reflexivity. Qed.
Example t_div_bc : bc (fun a b => op_div b a) = Ok
  "[[[[0, -2], [0, 0]], [[4, 6], [-1, -2]], [[8, -10], [-2, 3]]], [[[0, 0], [0, 0]], [[0, -1], [0, 0]], [[-1, 2], [1, -1]]], [[[0, 0], [0, 0]], [[0, 0], [0, 0]], [[0, 1], [0, 0]]]]".
Proof. vm_compute; reflexivity. Qed.
(* 229-262 *)
Example t_sum : show (let! a := i8_t [2; 3] in op_sum a) = Ok "2". Proof. vm_compute; reflexivity. Qed.
Example t_sum2 : show (let! a := i16_1 [3; 2] in op_sum a) = Ok "6". Proof. vm_compute; reflexivity. Qed.
Example t_mean : show (let! a := i16_2 [2; 2; 3] in let! a := to_dtype a F32 in op_mean a) = Ok "5.500000". Proof. vm_compute; reflexivity. Qed.
Example t_mean_i : show (let! a := full_int [2; 3; 3] (-1) I32 in op_mean a) = Ok "-1". Proof. vm_compute; reflexivity. Qed.
Example t_max : show (let! a := i8_t [2; 3] in op_max a) = Ok "11". Proof. vm_compute; reflexivity. Qed.
Example t_max2 : show (let! a := i16_1 [3; 1; 2] in op_max a) = Ok "8". Proof. vm_compute; reflexivity. Qed.
(* 264-310 *)
Definition sl (s : string) : outcome (list Z * string) :=
  out (let! a := i16_2 [4; 3] in let! b := slice a s in let! r := get_ten b in
       let! x := impl_to_string b in mret (sizes (t_lay r), x)).
Definition all43 := "[[0, 1, 2], [3, 4, 5], [6, 7, 8], [9, 10, 11]]".
Example t_sl1 : sl "" = Ok ([4; 3], all43). Proof. vm_compute; reflexivity. Qed.
Example t_sl2 : sl "," = Ok ([4; 3], all43). Proof. vm_compute; reflexivity. Qed.
Example t_sl3 : sl ":,::" = Ok ([4; 3], all43). Proof. vm_compute; reflexivity. Qed.
Example t_sl4 : sl ":," = Ok ([4; 3], all43). Proof. vm_compute; reflexivity. Qed.
Example t_sl5 : sl "1, 1" = Ok ([], "4"). Proof. vm_compute; reflexivity. Qed.
Example t_sl6 : sl "2,:" = Ok ([3], "[6, 7, 8]"). Proof. vm_compute; reflexivity. Qed.
Example t_sl7 : sl ":,-1" = Ok ([4], "[2, 5, 8, 11]"). Proof. vm_compute; reflexivity. Qed.
Example t_sl8 : sl "-4:-1:2,-1:0:-2" = Ok ([2; 1], "[[2], [8]]"). Proof. vm_compute; reflexivity. Qed.
Example t_sl9 : sl "-99: 99 :2, 99 : -99:-2" = Ok ([2; 2], "[[2, 0], [8, 6]]"). Proof. vm_compute; reflexivity. Qed.
Example t_sl10 : sl "::2, ::-2" = Ok ([2; 2], "[[2, 0], [8, 6]]"). Proof. vm_compute; reflexivity. Qed.
Example t_sl11 : sl "99::2, :-99:-2" = Ok ([0; 2], "[]"). Proof. vm_compute; reflexivity. Qed.
Example t_sl12 : out (let! a := i16_2 [4; 3] in let! b := slice a "99::2, :-99:-2" in
  let! b := slice b "-2:,1" in let! r := get_ten b in mret (sizes (t_lay r))) = Ok [0]. Proof. vm_compute; reflexivity. Qed.
Example t_sl13 : sl "-5::-2,:-4:2" = Ok ([0; 0], "[]"). Proof. vm_compute; reflexivity. Qed.
Example t_sl14 : sl ":3:-2,2:1:2" = Ok ([0; 0], "[]"). Proof. vm_compute; reflexivity. Qed.
Example t_sl15 : sl " - 1, 2" = Throw InvalidArgument. Proof. vm_compute; reflexivity. Qed.
Example t_sl16 : sl "99" = Throw RuntimeError. Proof. vm_compute; reflexivity. Qed.
(* 312-329 *)
Example t_tr : show (let! a := i16_2 [4; 3] in op_transpose a 0 1) =
  Ok "[[0, 3, 6, 9], [1, 4, 7, 10], [2, 5, 8, 11]]". Proof. vm_compute; reflexivity. Qed.
Example t_tr3 : show (let! a := i16_2 [2; 3; 2] in op_transpose a 0 2) =
  Ok "[[[0, 6], [2, 8], [4, 10]], [[1, 7], [3, 9], [5, 11]]]". Proof. vm_compute; reflexivity. Qed.
(* 331-359 *)
Definition rs (ss : list Z) : outcome string :=
  show (let! a := i16_2 [3; 4] in op_reshape a ss).
Example t_rs1 : rs [4; 3] = Ok all43. Proof. vm_compute; reflexivity. Qed.
Example t_rs2 : rs [2; -1] = Ok "[[0, 1, 2, 3, 4, 5], [6, 7, 8, 9, 10, 11]]". Proof. vm_compute; reflexivity. Qed.
Example t_rs3 : rs [6; 3] = Throw RuntimeError. Proof. vm_compute; reflexivity. Qed.
Example t_rs4 : rs [4; -1; -1] = Throw RuntimeError. Proof. vm_compute; reflexivity. Qed.
Example t_rs5 : rs [7; -1] = Throw RuntimeError. Proof. vm_compute; reflexivity. Qed.
Example t_rs6 : rs [] = Throw RuntimeError. Proof. vm_compute; reflexivity. Qed.
Example t_rs7 : show (let! a := i16_2 [4; 3] in let! b := slice a "::2, :" in op_reshape b [6]) =
  Ok "[0, 1, 2, 6, 7, 8]". Proof. vm_compute; reflexivity. Qed.
Example t_rs8 : show (let! a := ones [] I8 in op_reshape a [1; 1; 1]) = Ok "[[[1]]]". Proof. vm_compute; reflexivity. Qed.
Example t_rs9 : show (let! a := ones [1] I8 in op_reshape a []) = Ok "1". Proof. vm_compute; reflexivity. Qed.
Example t_rs10 : show (let! a := i16_2 [3; 4] in let! c := zeros [12] I16 in op_reshape_as a c) =
  Ok "[0, 1, 2, 3, 4, 5, 6, 7, 8, 9, 10, 11]". Proof. vm_compute; reflexivity. Qed.
(* 361-396 *)
Definition ct (d : Z) : outcome string :=
  show (let! a := i16_2 [4; 3] in op_cat [a; a; a] d).
Example t_cat2 : ct 2 = Throw RuntimeError. Proof. vm_compute; reflexivity. Qed.
Example t_cat1 : ct 1 = Ok "[[0, 1, 2, 0, 1, 2, 0, 1, 2], [3, 4, 5, 3, 4, 5, 3, 4, 5], [6, 7, 8, 6, 7, 8, 6, 7, 8], [9, 10, 11, 9, 10, 11, 9, 10, 11]]". Proof. vm_compute; reflexivity. Qed.
Example t_cat0 : ct 0 = Ok "[[0, 1, 2], [3, 4, 5], [6, 7, 8], [9, 10, 11], [0, 1, 2], [3, 4, 5], [6, 7, 8], [9, 10, 11], [0, 1, 2], [3, 4, 5], [6, 7, 8], [9, 10, 11]]". Proof. vm_compute; reflexivity. Qed.
Example t_cat_f : show (let! a := i16_2 [2; 2] in let! b := i16_1 [1; 2] in let! b := to_dtype b F32 in op_cat [a; b] 0) =
  Ok "[[0.000000, 1.000000], [2.000000, 3.000000], [0.000000, -2.000000]]". Proof. vm_compute; reflexivity. Qed.
Example t_cat_bad : show (let! a := i16_2 [3; 4] in let! b := i16_1 [2; 3] in op_cat [a; b] 0) = Throw RuntimeError. Proof. vm_compute; reflexivity. Qed.
(* 398-436 *)
Definition back (t : nat) : E unit := let! s := op_sum t in backward s.
Example g_add : out (
  let! a := ones [2; 3] F64 in let! b := ones [2; 3] F32 in
  rgrad a ;;; let! ba := op_add b a in let! c := op_add a ba in
  back c ;;; let! x := grad_str a in let! y := grad_str b in mret (x, y)) =
  Ok ("[[2.000000, 2.000000, 2.000000], [2.000000, 2.000000, 2.000000]]", "[]"). Proof. vm_compute; reflexivity. Qed.
Example g_add2 : out (
  let! a := create_scalar F32 (VF (ieee_of_Z FT32 1)) in let! b := create_scalar F64 (VF (dbl 1)) in
  rgrad a ;;; rgrad b ;;;
  let! c := op_add b a in let! c := op_add a c in let! c := op_add c b in
  let! d := op_add c c in let! d := op_add d a in
  back d ;;; let! x := grad_str a in let! y := grad_str b in
  zero_grad a ;;; let! z := grad_str a in mret (x, y, z)) =
  Ok ("5.000000", "4.000000", "0.000000"). Proof. vm_compute; reflexivity. Qed.
(* 438-448 *)
Example g_sum : out (
  let! a := ones [2; 3] F64 in let! b := i8_t [2; 3] in let! b := to_dtype b F32 in
  rgrad a ;;; rgrad b ;;; retain a ;;; retain b ;;;
  let! x := op_sum a in let! y := op_sum b in let! c := op_mul x y in
  backward c ;;; let! x := grad_str a in mret x) =
  Ok "[[2.000000, 2.000000, 2.000000], [2.000000, 2.000000, 2.000000]]". Proof. vm_compute; reflexivity. Qed.
(* 450-466 *)
Example g_sub : out (
  let! a := ones [2; 3] F64 in let! b := ones [2; 1] F32 in rgrad a ;;; rgrad b ;;;
  let! c := op_sub a b in back c ;;;
  let! x := grad_str a in let! y := grad_str b in mret (x, y)) =
  Ok ("[[1.000000, 1.000000, 1.000000], [1.000000, 1.000000, 1.000000]]", "[[-3.000000], [-3.000000]]"). Proof. vm_compute; reflexivity. Qed.
Example g_sub_add : out (
  let! a := ones [2; 3] F64 in let! b := create_scalar F64 (VF (dbl 5)) in rgrad a ;;; rgrad b ;;;
  let! c := op_sub a b in let! c := op_add c b in back c ;;; grad_str b) = Ok "0.000000". Proof. vm_compute; reflexivity. Qed.
(* 468-495 *)
Definition fl (m : E nat) (dt : dtype) : E nat := let! t := m in to_dtype t dt.
Example g_mul : out (
  let! a := fl (i8_t [2; 3]) F32 in let! b := fl (i8_t [2; 3]) F64 in rgrad a ;;; rgrad b ;;;
  let! c := op_mul a b in back c ;;; let! x := grad_str a in let! y := grad_str b in mret (x, y)) =
  let s := "[[1.000000, -3.000000, -5.000000], [7.000000, -9.000000, 11.000000]]" in Ok (s, s). Proof. vm_compute; reflexivity. Qed.
Example g_mul_const : out (
  let! a := fl (i8_t [2; 3]) F32 in let! b := fl (i8_t [2; 3]) F64 in rgrad a ;;;
  let! c := op_mul a b in let! c := op_mul a c in let! c := op_mul c b in back c ;;; grad_str a) =
  Ok "[[2.000000, -54.000000, -250.000000], [686.000000, -1458.000000, 2662.000000]]". Proof. vm_compute; reflexivity. Qed.
Example g_mul_bc : out (
  let! a := fl (i8_t [2; 3]) F32 in let! b := create_scalar F64 (VF (dbl 2)) in rgrad a ;;; rgrad b ;;;
  let! c := op_mul a b in back c ;;; grad_str b) = Ok "2.000000". Proof. vm_compute; reflexivity. Qed.
(* 497-512 *)
Example g_div : out (
  let! a := fl (i8_t [2; 3]) F32 in let! b := fl (i16_1 [2; 3]) F64 in rgrad a ;;; rgrad b ;;;
  let! c := op_div b a in back c ;;; grad_str b) =
  Ok "[[1.000000, -0.333333, -0.200000], [0.142857, -0.111111, 0.090909]]". Proof. vm_compute; reflexivity. Qed.
Example g_div_a : out (
  let! a := fl (i8_t [2; 3]) F32 in let! b := fl (i16_1 [2; 3]) F64 in rgrad a ;;; rgrad b ;;;
  let! c := op_div b a in back c ;;;
  let! n := op_neg b in let! q := op_div n a in let! q := op_div q a in let! q := to_dtype q F32 in
  let! r := get_ten a in let! g := deref (t_grad r) in
  let! d := op_sub g q in let! d := op_abs d in let! e := create_scalar F64 (VF (S754_finite false 4722366482869645 (-72))) in
  let! lt := op_cmp CLt d e in op_all lt) = Ok true. Proof. vm_compute; reflexivity. Qed.
(* 514-566 *)
Definition gsl (s : string) : outcome string := out (
  let! a := fl (i16_2 [4; 3]) F32 in rgrad a ;;;
  let! b := slice a s in back b ;;;
  let! r := get_ten a in let! g := deref (t_grad r) in let! g := to_dtype g I8 in impl_to_string g).
Example g_sl1 : gsl ":," = Ok "[[1, 1, 1], [1, 1, 1], [1, 1, 1], [1, 1, 1]]". Proof. vm_compute; reflexivity. Qed.
Example g_sl2 : gsl "1, 1" = Ok "[[0, 0, 0], [0, 1, 0], [0, 0, 0], [0, 0, 0]]". Proof. vm_compute; reflexivity. Qed.
Example g_sl3 : gsl ":,-1" = Ok "[[0, 0, 1], [0, 0, 1], [0, 0, 1], [0, 0, 1]]". Proof. vm_compute; reflexivity. Qed.
Example g_sl4 : gsl "-4:-1:2,-1:0:-2" = Ok "[[0, 0, 1], [0, 0, 0], [0, 0, 1], [0, 0, 0]]". Proof. vm_compute; reflexivity. Qed.
Example g_sl5 : gsl "99::2, :-99:-2" = Ok "[[0, 0, 0], [0, 0, 0], [0, 0, 0], [0, 0, 0]]". Proof. vm_compute; reflexivity. Qed.
Example g_sl_seq : out (
  let! a := fl (i16_2 [4; 3]) F32 in rgrad a ;;;
  let! b := slice a "1, 1" in back b ;;; let! b := slice a "2,:" in back b ;;;
  let! b := slice a ":,-1" in back b ;;; let! b := slice a "-4:-1:2,-1:0:-2" in back b ;;;
  let! b := slice a "-99: 99 :2, 99 : -99:-2" in back b ;;;
  let! r := get_ten a in let! g := deref (t_grad r) in let! g := to_dtype g I8 in impl_to_string g) =
  Ok "[[1, 0, 3], [0, 1, 1], [2, 1, 4], [0, 0, 1]]". Proof. vm_compute; reflexivity. Qed.
(* 568-582 *)
Example g_tr : out (
  let! a := fl (i16_1 [2; 3]) F64 in let! b := fl (i8_t [3; 2]) F64 in rgrad a ;;; rgrad b ;;;
  let! c := op_transpose b 0 1 in retain c ;;; let! p := op_mul a c in back p ;;;
  let! x := grad_str a in let! x' := impl_to_string c in
  let! y := grad_str c in let! y' := impl_to_string a in
  let! z := grad_str b in let! at_ := op_transpose a 0 1 in let! z' := impl_to_string at_ in
  mret (bool_decide (x = x'), bool_decide (y = y'), bool_decide (z = z'))) = Ok (true, true, true). Proof. vm_compute; reflexivity. Qed.
Example g_tr3 : out (
  let! a := fl (i16_1 [2; 3]) F64 in rgrad a ;;;
  let! b := op_transpose a 0 1 in let! b := op_transpose b 0 1 in let! b := op_transpose b 0 1 in
  back b ;;; grad_str a) = Ok "[[1.000000, 1.000000, 1.000000], [1.000000, 1.000000, 1.000000]]". Proof. vm_compute; reflexivity. Qed.
(* 584-599: the second backward through b stops at b (see C48) *)
Example g_clone : out (
  let! a := fl (i16_1 [2; 3]) F64 in rgrad a ;;; let! b := op_clone a in back a ;;;
  let! x := grad_str a in zero_grad a ;;; back b ;;; let! s := op_add a b in back s ;;;
  let! y := grad_str a in let! z := grad_str b in mret (x, y, z)) =
  let one := "[[1.000000, 1.000000, 1.000000], [1.000000, 1.000000, 1.000000]]" in
  Ok (one, "[[2.000000, 2.000000, 2.000000], [2.000000, 2.000000, 2.000000]]", one). Proof. vm_compute; reflexivity. Qed.
(* 609-632 *)
Example g_contig : out (
  let! a := fl (i16_1 [2; 3]) F64 in rgrad a ;;; let! b := op_transpose a 0 1 in retain b ;;;
  let! c := op_contiguous b in retain c ;;; let! d := slice c "::2, :" in retain d ;;;
  back d ;;;
  let! x := grad_str d in let! y := grad_str c in let! z := grad_str b in let! w := grad_str a in
  mret (x, y, z, w)) =
  let t := "[[1.000000, 1.000000], [0.000000, 0.000000], [1.000000, 1.000000]]" in
  Ok ("[[1.000000, 1.000000], [1.000000, 1.000000]]", t, t,
      "[[1.000000, 0.000000, 1.000000], [1.000000, 0.000000, 1.000000]]"). Proof. vm_compute; reflexivity. Qed.
(* 634-662 *)
Example g_reshape : out (
  let! a := fl (i16_2 [4; 3]) F64 in rgrad a ;;; let! b := slice a "::2, :" in
  let! c := op_reshape b [3; 2] in retain c ;;; retain b ;;;
  let! d := fl (i16_1 [3; 2]) F64 in rgrad d ;;;
  let! p := op_mul d c in back p ;;;
  let! x := grad_str d in let! y := grad_str c in let! z := grad_str b in let! w := grad_str a in mret (x, y, z, w)) =
  Ok ("[[0.000000, 1.000000], [2.000000, 6.000000], [7.000000, 8.000000]]",
      "[[0.000000, -2.000000], [4.000000, 6.000000], [8.000000, -10.000000]]",
      "[[0.000000, -2.000000, 4.000000], [6.000000, 8.000000, -10.000000]]",
      "[[0.000000, -2.000000, 4.000000], [0.000000, 0.000000, 0.000000], [6.000000, 8.000000, -10.000000], [0.000000, 0.000000, 0.000000]]").
Proof. vm_compute; reflexivity. Qed.
(* 664-673 *)
Example g_type : out (
  let! a := fl (i16_1 [2; 3]) F32 in let! b := fl (i8_t [2; 3]) F32 in rgrad a ;;;
  let! c := to_dtype a F64 in let! c := op_mul c b in back c ;;;
  let! x := grad_str a in let! y := impl_to_string b in mret (bool_decide (x = y))) = Ok true. Proof. vm_compute; reflexivity. Qed.
Example g_type_int : out (let! a := fl (i16_1 [2; 3]) F32 in rgrad a ;;; to_dtype a I64) = Throw RuntimeError. Proof. vm_compute; reflexivity. Qed.
(* 675-693 *)
Example g_cat : out (
  let! a := fl (i16_2 [4; 3]) F32 in let! b := fl (i16_1 [2; 3]) F64 in rgrad a ;;; rgrad b ;;;
  let! c := op_cat [a; b; a] 0 in retain c ;;; back c ;;;
  let! x := grad_str a in let! y := grad_str b in mret (x, y)) =
  let r2 := "[2.000000, 2.000000, 2.000000]" in let r1 := "[1.000000, 1.000000, 1.000000]" in
  Ok ("[" +:+ r2 +:+ ", " +:+ r2 +:+ ", " +:+ r2 +:+ ", " +:+ r2 +:+ "]", "[" +:+ r1 +:+ ", " +:+ r1 +:+ "]").
Proof. vm_compute; reflexivity. Qed.
(* 695-711 *)
Example g_max : out (let! a := fl (i16_1 [2; 3]) F32 in rgrad a ;;; let! m := op_max a in backward m ;;; grad_str a) =
  Ok "[[0.000000, 0.000000, 0.000000], [0.000000, 1.000000, 0.000000]]". Proof. vm_compute; reflexivity. Qed.
Example g_min : out (let! a := fl (i16_1 [2; 3]) F32 in rgrad a ;;; let! m := op_min a in backward m ;;; grad_str a) =
  Ok "[[0.000000, 0.000000, 0.000000], [0.000000, 0.000000, 1.000000]]". Proof. vm_compute; reflexivity. Qed.
(* 717-719 *)
Example t_randn : out (op_randn [3; 5] I8 []) = Throw RuntimeError. Proof. vm_compute; reflexivity. Qed.
(* 412-413: b becomes a leaf with gradient after d = b + (a + b) was recorded *)
Example g_late : out (
  let! a := ones [2; 3] F64 in let! b := ones [2; 3] F32 in rgrad a ;;;
  let! ab := op_add a b in let! d := op_add b ab in rgrad b ;;; back d) = Ok tt. Proof. vm_compute; reflexivity. Qed.
(* 506-511 *)
Example g_div_bc : out (
  let! a := fl (i8_t [2; 3]) F32 in let! b := create_scalar F64 (VF (dbl 5)) in rgrad a ;;; rgrad b ;;;
  let! c := op_div b a in let! c := op_mul c a in back c ;;;
  let! x := grad_str b in let! r := get_ten a in let! g := deref (t_grad r) in
  let! g := op_abs g in let! e := create_scalar F64 (VF (S754_finite false 4722366482869645 (-72))) in
  let! lt := op_cmp CLt g e in let! y := op_all lt in mret (x, y)) = Ok ("6.000000", true). Proof. vm_compute; reflexivity. Qed.
(* 601-607 *)
Example g_detach : out (
  let! a := fl (i16_1 [2; 3]) F64 in rgrad a ;;; let! b := op_clone a in let! b := op_detach b in
  let! s := op_add a b in back s ;;; grad_str a) =
  Ok "[[1.000000, 1.000000, 1.000000], [1.000000, 1.000000, 1.000000]]". Proof. vm_compute; reflexivity. Qed.
(* 635-645 *)
Example g_reshape0 : out (
  let! a := fl (i16_1 [2; 3]) F32 in let! b := fl (i8_t [6]) F64 in rgrad a ;;; rgrad b ;;;
  let! c := op_reshape b [2; 3] in retain c ;;; let! p := op_mul a c in back p ;;;
  let! x := grad_str a in let! y := grad_str c in let! z := grad_str b in mret (x, y, z)) =
  Ok ("[[1.000000, -3.000000, -5.000000], [7.000000, -9.000000, 11.000000]]",
      "[[0.000000, -2.000000, 4.000000], [6.000000, 8.000000, -10.000000]]",
      "[0.000000, -2.000000, 4.000000, 6.000000, 8.000000, -10.000000]"). Proof. vm_compute; reflexivity. Qed.
(* 251-262: max of an empty slice of a one-element buffer returns *)
Example t_max_empty : out (let! a := ones [1] I16 in let! a := slice a "3:4" in let! m := op_max a in mret tt) = Ok tt. Proof. vm_compute; reflexivity. Qed.
(* 394-395 *)
Example t_cat_one : show (let! a := i16_2 [3; 4] in op_cat [a] 0) = show (i16_2 [3; 4]). Proof. vm_compute; reflexivity. Qed.
