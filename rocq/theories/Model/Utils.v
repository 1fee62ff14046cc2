(** utils.cpp / utils.hpp: string splitting, broadcasting, the index odometer. *)
From Verif.Model Require Export Heap.
From Coq Require Export Strings.Ascii.

(** utils.cpp:5-18 ssplit. The do-while scans once, cutting at every delimiter;
    an empty input gives an empty vector. *)
Fixpoint ssplit_go (d : ascii) (s : list ascii) (cur : list ascii) : list (list ascii) :=
  match s with
  | [] => [rev cur]
  | c :: r => if Ascii.eqb c d then rev cur :: ssplit_go d r [] else ssplit_go d r (c :: cur)
  end.
Definition ssplit (s : list ascii) (d : ascii) : list (list ascii) :=
  match s with [] => [] | _ => ssplit_go d s [] end.

(** utils.hpp:29 ws = " \t\n\r\f\v" (also the set std::isspace accepts) *)
Definition is_ws (c : ascii) : bool :=
  existsb (Nat.eqb (nat_of_ascii c)) [32; 9; 10; 13; 12; 11]%nat.
Fixpoint drop_ws (s : list ascii) : list ascii :=
  match s with c :: r => if is_ws c then drop_ws r else s | [] => [] end.
(** utils.hpp:31-39 ltrim_, rtrim_, trim_ *)
Definition trim (s : list ascii) : list ascii :=
  drop_ws (rev (drop_ws (rev s))).

(** std::stoll(s): optional blanks, optional sign, at least one decimal digit; the
    rest of the string is ignored. *)
Definition digit_of (c : ascii) : option Z :=
  let n := Z.of_nat (nat_of_ascii c) in
  if (48 <=? n) && (n <=? 57) then Some (n - 48) else None.
Fixpoint digits (acc : Z) (s : list ascii) : Z :=
  match s with
  | c :: r => match digit_of c with Some d => digits (10 * acc + d) r | None => acc end
  | [] => acc
  end.
Definition stoll (s : list ascii) : outcome Z :=
  let s1 := drop_ws s in
  let '(neg, s2) := match s1 with
                    | c :: r => if Ascii.eqb c "-"%char then (true, r)
                                else if Ascii.eqb c "+"%char then (false, r) else (false, s1)
                    | [] => (false, [])
                    end in
  match s2 with
  | c :: _ =>
      match digit_of c with
      | Some _ =>
          let z := digits 0 s2 in
          let z := if neg : bool then - z else z in
          if fits_s64 z then Ok z else Throw OutOfRange
      | None => Throw InvalidArgument
      end
  | [] => Throw InvalidArgument
  end.

(** utils.cpp:20-39 broadcast_range. After the swap [u] is the longer vector; the
    loop runs from the last dimension, so both are walked reversed. The condition
    in run_expect is transcribed as written. *)
Fixpoint brange_rev (ru rv : list Z) : outcome (list Z) :=
  match ru, rv with
  | su :: ru', sv :: rv' =>
      let? _ := orun_expect (negb (su =? 1) || negb (sv =? 1) || (su =? sv)) in
      let? rest := brange_rev ru' rv' in
      Ok (Z.max su sv :: rest)
  | _, [] => Ok ru
  | [], _ :: _ => Ok []                     (* excluded by the swap *)
  end.
Definition broadcast_range (u v : list Z) : outcome (list Z) :=
  let '(u, v) := if Nat.ltb (length u) (length v) then (v, u) else (u, v) in
  let? r := brange_rev (rev u) (rev v) in
  Ok (rev r).

(** utils.hpp:120-126 (the same loop is written out in ops.hpp:112-118,
    ops.hpp:147-155 and tensorImpl.cpp:756-762): starting at [ptr], while
    sv[ptr] == range[ptr]: stop if ptr == 0, else sv[ptr] = 0; ++sv[--ptr]. *)
Fixpoint carry (range : list Z) (ptr : nat) (sv : list Z) : option (list Z) :=
  if nth ptr sv 0 =? nth ptr range 0 then
    match ptr with
    | O => None
    | S p => let sv1 := <[ptr := 0]> sv in carry range p (<[p := nth p sv1 0 + 1]> sv1)
    end
  else Some sv.

(** product of the extents; only used as loop fuel *)
Definition extent (range : list Z) : Z := fold_right Z.mul 1 range.

Section with_state.
Context {S : Type}.

(** One iteration of the while(true) loop, utils.hpp:119-129: normalise [sv], run
    the body, ++sv[last_idx]. The body may leave the loop early with [Some r]
    (only [all] does, tensorImpl.cpp:765). *)
Definition odo_step {R} (range : list Z) (body : list Z -> M S (option R))
    (x : list Z * S) : (list Z * S) + (outcome (option R) * S) :=
  let '(sv, h) := x in
  let last := Nat.pred (length range) in
  match carry range last sv with
  | None => inr (Ok None, h)
  | Some sv' =>
      match body sv' h with
      | (Ok None, h') => inl (<[last := nth last sv' 0 + 1]> sv', h')
      | (o, h') => inr (o, h')
      end
  end.
(** the whole loop on a non-empty [range] *)
Definition odometer {R} (range : list Z) (body : list Z -> M S (option R)) : M S (option R) :=
  fun h =>
    match iter_until (Z.to_pos (extent range + 1)) (odo_step range body)
            (repeat 0 (length range), h) with
    | inl (_, h') => (Diverge, h')
    | inr r => r
    end.

Definition plain {A} (body : A -> M S unit) : A -> M S (option Empty_set) :=
  fun x => let! _ := body x in mret None.

(** utils.hpp:109-134 for_each_sizevec *)
Definition for_each_sizevec (range : list Z) (op : list Z -> M S unit) : M S unit :=
  if existsb (Z.eqb 0) range then mret tt
  else match range with
       | [] => op []
       | _ => let! _ := odometer range (plain op) in mret tt
       end.
End with_state.
