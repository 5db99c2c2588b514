(** * The repository's unit tests of mu_bbuf and mu_bvec, run on the models (see
    UnitTests.v). *)
From Verif Require Import CSem JsonSpec BbufModel BvecModel.

Delimit Scope string_scope with string.
Local Ltac run := intros p; destruct p; vm_compute; reflexivity.

(** ** test_mu_bbuf.c.  C string constants are blocks ending in 0. *)
Definition cs (s : String.string) : list Z := str s ++ [0].
Arguments cs s%string_scope.
Definition P (b : nat) : ptr := Ptr b 0.
(** the struct mu_bbuf_init_cstr builds on block [b] *)
Definition icstr (m : memory) (b : nat) : res bbuf :=
  let* e := mu_bbuf_init_cstr m [MkBbuf (P 99) 0] 0 (P b) in sget e 0.
(** the bytes a struct designates *)
Definition contents (m : memory) (b : bbuf) : option (list Z) :=
  match m !! blk (bytes b) with
  | Some d => Some (take (Z.to_nat (capacity b)) (drop (Z.to_nat (off (bytes b))) d))
  | None => None
  end.

(** test_mu_bbuf.c:12-29 local_strncmp(s1, s2, n) == 0 and cstr_eq: at most capacity bytes
    are compared *)
Fixpoint strn_eq (n : nat) (a b : list Z) : bool :=
  match n, a, b with
  | O, _, _ => true
  | S n, x :: a, y :: b => if x =? y then if x =? 0 then true else strn_eq n a b else false
  | S n, _, _ => false
  end.
Definition cstr_eq (m : memory) (b : bbuf) (s : String.string) : bool :=
  match m !! blk (bytes b) with
  | Some d => strn_eq (Z.to_nat (capacity b)) (drop (Z.to_nat (off (bytes b))) d) (cs s)
  | None => false
  end.
Arguments cstr_eq m b s%string_scope.

(** test_mu_bbuf.c:114-132 *)
Example test_mu_bbuf_init :
  let m := [replicate 10 7; cs "asdf"; replicate 10 8] in
  (let* e := mu_bbuf_init_ro [MkBbuf (P 9) 1] 0 (P 0) 10 in sget e 0) = Ok (MkBbuf (P 0) 10) /\
  icstr m 1 = Ok (MkBbuf (P 1) 4) /\
  (let* e := mu_bbuf_init_rw [MkBbuf (P 9) 1] 0 (P 2) 10 in sget e 0) = Ok (MkBbuf (P 2) 10).
Proof. repeat split. Qed.
(** test_mu_bbuf.c:134-142 *)
Example test_mu_bbuf_copy :
  mu_bbuf_copy [MkBbuf (P 0) 10; MkBbuf (P 9) 1] 1 0 = Ok [MkBbuf (P 0) 10; MkBbuf (P 0) 10].
Proof. reflexivity. Qed.
(** test_mu_bbuf.c:144-156 *)
Example test_mu_buf_ref :
  let m := [replicate 10 7] in let b := MkBbuf (P 0) 10 in
  (mu_bbuf_ref m b 0, mu_bbuf_ref m b 10) = (Ok (Some (P 0)), Ok None).
Proof. reflexivity. Qed.

(** test_mu_bbuf.c:158-203: signs of mu_bbuf_compare and mu_bbuf_compare_cstr *)
Definition cmp2 (p : plat) (s1 s2 : String.string) : res (Z * Z) :=
  let m := [cs s1; cs s2] in
  let* b1 := icstr m 0 in let* b2 := icstr m 1 in
  let* r := mu_bbuf_compare m b1 b2 in let* r' := mu_bbuf_compare_cstr m b1 (P 1) in
  Ok (Z.sgn r, Z.sgn r').
Arguments cmp2 p s1%string_scope s2%string_scope.
Example test_mu_bbuf_compare : forall p,
  (cmp2 p "abcd" "abcd", cmp2 p "abcd" "abcc", cmp2 p "abcd" "abce", cmp2 p "abcd" "abc",
   cmp2 p "abcd" "abcde", cmp2 p "" "", cmp2 p "abcd" "", cmp2 p "" "abcd")
  = (Ok (0, 0), Ok (1, 1), Ok (-1, -1), Ok (1, 1), Ok (-1, -1), Ok (0, 0), Ok (1, 1), Ok (-1, -1)).
Proof. run. Qed.

(** test_mu_bbuf.c:205-250: structs 0 = b1 on "ABCDEFGHIJ", 1 = b2 *)
Definition slice_ok (p : plat) (start end_ : Z) (want : String.string) : bool :=
  let m := [cs "ABCDEFGHIJ"] in
  match (let* b1 := icstr m 0 in mu_bbuf_slice p m [b1; MkBbuf (P 9) 1] 1 0 start end_) with
  | Ok [_; b2] => cstr_eq m b2 want
  | _ => false
  end.
Arguments slice_ok p (_ _)%Z_scope want%string_scope.
Example test_mu_bbuf_slice : forall p,
  forallb id [slice_ok p 0 MU_BBUF_END "ABCDEFGHIJ"; slice_ok p 0 10 "ABCDEFGHIJ";
    slice_ok p 1 MU_BBUF_END "BCDEFGHIJ"; slice_ok p (-9) MU_BBUF_END "BCDEFGHIJ";
    slice_ok p 0 9 "ABCDEFGHI"; slice_ok p 0 (-1) "ABCDEFGHI"; slice_ok p 3 7 "DEFG";
    slice_ok p (-7) (-3) "DEFG"; slice_ok p 5 5 ""; slice_ok p 6 5 ""; slice_ok p 20 10 "";
    slice_ok p 0 (-20) ""] = true.
Proof. run. Qed.

(** test_mu_bbuf.c:252-299: structs 0 = src, 1 = left, 2 = right *)
Definition bisect_ok (p : plat) (l r : nat) (index : Z) (wl wr : String.string) : bool :=
  let m := [cs "ABCDEFGHIJ"] in
  match (let* src := icstr m 0 in
         let* e := mu_bbuf_bisect p m [src; MkBbuf (P 9) 1; MkBbuf (P 9) 1] (Some l) (Some r) 0 index in
         let* x := sget e l in let* y := sget e r in Ok (x, y)) with
  | Ok (x, y) => cstr_eq m x wl && cstr_eq m y wr
  | _ => false
  end.
Arguments bisect_ok p (l r)%nat_scope _ wl%string_scope wr%string_scope.
Example test_mu_bbuf_bisect : forall p,
  forallb id [bisect_ok p 1 2 0 "" "ABCDEFGHIJ"; bisect_ok p 1 2 1 "A" "BCDEFGHIJ";
    bisect_ok p 1 2 9 "ABCDEFGHI" "J"; bisect_ok p 1 2 10 "ABCDEFGHIJ" "";
    bisect_ok p 1 2 MU_BBUF_END "ABCDEFGHIJ" ""; bisect_ok p 1 2 (-1) "ABCDEFGHI" "J";
    bisect_ok p 1 2 (-9) "A" "BCDEFGHIJ"; bisect_ok p 1 2 (-10) "" "ABCDEFGHIJ";
    bisect_ok p 0 2 1 "A" "BCDEFGHIJ"; bisect_ok p 1 0 1 "A" "BCDEFGHIJ"] = true.
Proof. run. Qed.

(** test_mu_bbuf.c:301-318 and 320-347: with a bbuf and with a C string *)
Definition both (p : plat) (f : memory -> bbuf -> bbuf -> res bool) (g : memory -> bbuf -> ptr -> res bool)
    (s2 : String.string) : res (bool * bool) :=
  let m := [cs "abcd"; cs s2] in
  let* b1 := icstr m 0 in let* b2 := icstr m 1 in
  let* r := f m b1 b2 in let* r' := g m b1 (P 1) in Ok (r, r').
Arguments both p f g s2%string_scope.
Definition T := @Ok (bool * bool) (true, true).
Definition F := @Ok (bool * bool) (false, false).
Example test_mu_bbuf_matches : forall p,
  map (both p mu_bbuf_matches mu_bbuf_matches_cstr) [""; "a"; "ab"; "abc"; "abcd"; "abcde"]%string
  = [F; F; F; F; T; F].
Proof. run. Qed.
Example test_mu_bbuf_has_suffix_prefix : forall p,
  map (both p (mu_bbuf_has_prefix) (mu_bbuf_has_prefix_cstr)) [""; "ab"; "cd"; "abcd"; "abcde"]%string
    = [T; T; F; T; F] /\
  map (both p (mu_bbuf_has_suffix) (mu_bbuf_has_suffix_cstr)) [""; "ab"; "cd"; "abcd"; "abcde"]%string
    = [T; F; T; T; F].
Proof. intros p; destruct p; vm_compute; split; reflexivity. Qed.

(** test_mu_bbuf.c:349-403 *)
Definition find2 (f : memory -> bbuf -> bbuf -> bool -> res Z) (g : memory -> bbuf -> ptr -> bool -> res Z)
    (s : String.string) : list (res Z) :=
  let m := [cs "abXcdabYcd"; cs s] in
  let on skip := (let* b1 := icstr m 0 in let* b2 := icstr m 1 in f m b1 b2 skip) in
  let on' skip := (let* b1 := icstr m 0 in g m b1 (P 1) skip) in
  [on false; on true; on' false; on' true].
Example test_mu_bbuf_find_substr : forall p : plat,
  map (find2 (mu_bbuf_find_substr) (mu_bbuf_find_subcstr)) [""; "ab"; "cd"; "cdX"]%string
  = [[Ok 0; Ok 0; Ok 0; Ok 0]; [Ok 0; Ok 2; Ok 0; Ok 2]; [Ok 3; Ok 5; Ok 3; Ok 5];
     replicate 4 (Ok MU_BBUF_NOT_FOUND)] /\
  map (find2 (mu_bbuf_rfind_substr) (mu_bbuf_rfind_subcstr)) [""; "ab"; "cd"; "cdX"]%string
  = [[Ok 10; Ok 10; Ok 10; Ok 10]; [Ok 5; Ok 7; Ok 5; Ok 7]; [Ok 8; Ok 10; Ok 8; Ok 10];
     replicate 4 (Ok MU_BBUF_NOT_FOUND)].
Proof. intros p; destruct p; vm_compute; split; reflexivity. Qed.

(** test_mu_bbuf.c:405-418 *)
Example test_mu_bbuf_find_byte : forall p : plat,
  let m := [cs "abac"; cs "caba"] in
  map (fun c => let* b := icstr m 0 in mu_bbuf_find_byte p m b c) [97; 99; 122]
    = [Ok 0; Ok 3; Ok MU_BBUF_NOT_FOUND] /\
  map (fun c => let* b := icstr m 1 in mu_bbuf_rfind_byte p m b c) [97; 99; 122]
    = [Ok 3; Ok 0; Ok MU_BBUF_NOT_FOUND].
Proof. intros p; destruct p; vm_compute; split; reflexivity. Qed.

(** test_mu_bbuf.c:47-110, the predicates *)
Definition is_member (l : list Z) (b : Z) : bool := existsb (Z.eqb b) l.
Definition is_numeric := is_member (str "0123456789").
Definition is_hexadecimal := is_member (str "0123456789abcdefABCDEF").
Definition is_whitespace := is_member [32; 9; 13; 10; 12; 11].
Definition is_x (b : Z) : bool := b =? 120.
Definition Not (f : Z -> bool) (b : Z) : bool := negb (f b).
(** test_mu_bbuf.c:420-460.  mu_bbuf_find_predicate finds the first byte NOT matching *)
Example test_mu_bbuf_find_predicate : forall p : plat,
  let m := [cs "0123"; str "0123456789abcDEF " ++ [13; 10; 9; 11; 12; 0]; cs ""] in
  let fnd b f := (let* b := icstr m b in mu_bbuf_find_predicate m b f) in
  let rfnd b f := (let* b := icstr m b in mu_bbuf_rfind_predicate m b f) in
  let NF := Ok MU_BBUF_NOT_FOUND in
  (fnd 0%nat (Not is_numeric), fnd 0%nat is_numeric, rfnd 0%nat (Not is_numeric), rfnd 0%nat is_numeric)
    = (Ok 0, NF, Ok 3, NF) /\
  map (fnd 1%nat) [Not is_numeric; is_numeric; Not is_hexadecimal; is_hexadecimal; Not is_whitespace;
                   is_whitespace; Not is_x; is_x]
    = [Ok 0; Ok 10; Ok 0; Ok 16; Ok 16; Ok 0; NF; Ok 0] /\
  map (rfnd 1%nat) [Not is_numeric; is_numeric; Not is_hexadecimal; is_hexadecimal; Not is_whitespace;
                    is_whitespace; Not is_x; is_x]
    = [Ok 9; Ok 21; Ok 15; Ok 21; Ok 21; Ok 15; NF; Ok 21] /\
  map (fnd 2%nat) [fun _ => true; fun _ => false] = [NF; NF] /\
  map (rfnd 2%nat) [fun _ => true; fun _ => false] = [NF; NF].
Proof. intros p; destruct p; vm_compute; repeat split. Qed.

(** test_mu_bbuf.c:462-499; structs 0 = src, 1 = dst *)
Definition trim_ok (f : memory -> senv -> nat -> nat -> (Z -> bool) -> res senv) (dst : nat)
    (s want : String.string) : bool :=
  let m := [cs s] in
  match (let* src := icstr m 0 in
         let* e := f m [src; MkBbuf (P 9) 1] dst 0%nat is_whitespace in sget e dst) with
  | Ok b => cstr_eq m b want
  | _ => false
  end.
Arguments trim_ok f dst%nat_scope s%string_scope want%string_scope.
Example test_mu_bbuf_trim : forall p,
  forallb id [trim_ok (mu_bbuf_ltrim p) 1 "  abcde  " "abcde  "; trim_ok (mu_bbuf_rtrim p) 1 "  abcde  " "  abcde";
    trim_ok (mu_bbuf_trim p) 1 "  abcde  " "abcde";
    trim_ok (mu_bbuf_ltrim p) 0 "  abcde  " "abcde  "; trim_ok (mu_bbuf_rtrim p) 0 "  abcde  " "  abcde";
    trim_ok (mu_bbuf_trim p) 0 "  abcde  " "abcde";
    trim_ok (mu_bbuf_ltrim p) 1 "" ""; trim_ok (mu_bbuf_rtrim p) 1 "" ""] = true.
Proof. run. Qed.
(** The test passes although rtrim drops the last byte that should stay: cstr_eq only
    compares as many bytes as are left. *)
Example test_mu_bbuf_rtrim_actual : forall p,
  (let m := [cs "  abcde  "] in
   let* src := icstr m 0 in
   let* e := mu_bbuf_rtrim p m [src; MkBbuf (P 9) 1] 1 0 is_whitespace in
   let* b := sget e 1 in Ok (contents m b)) = Ok (Some (str "  abcd")).
Proof. run. Qed.

(** test_mu_bbuf.c:501-721: int, unsigned, 8, u8, 16, u16, 32, u32, 64, u64 *)
Definition all_parsers : list (memory -> bbuf -> res Z) :=
  [mu_bbuf_parse_int; mu_bbuf_parse_unsigned_int; mu_bbuf_parse_int8; mu_bbuf_parse_uint8;
   mu_bbuf_parse_int16; mu_bbuf_parse_uint16; mu_bbuf_parse_int32; mu_bbuf_parse_uint32;
   mu_bbuf_parse_int64; mu_bbuf_parse_uint64].
Definition parse_all (s : String.string) : list (res Z) :=
  let m := [cs s] in map (fun f => let* b := icstr m 0 in f m b) all_parsers.
Arguments parse_all s%string_scope.
Definition oks (l : list Z) : list (res Z) := map Ok l.
Example test_mu_bbuf_parse_int :
  parse_all "" = oks [0; 0; 0; 0; 0; 0; 0; 0; 0; 0] /\
  parse_all "z123" = oks [0; 0; 0; 0; 0; 0; 0; 0; 0; 0] /\
  parse_all "0" = oks [0; 0; 0; 0; 0; 0; 0; 0; 0; 0] /\
  parse_all "-0" = oks [0; 0; 0; 0; 0; 0; 0; 0; 0; 0] /\
  parse_all "1" = oks [1; 1; 1; 1; 1; 1; 1; 1; 1; 1] /\
  parse_all "-1" = oks [-1; 0; -1; 0; -1; 0; -1; 0; -1; 0] /\
  parse_all "255" = oks [255; 255; -1; 255; 255; 255; 255; 255; 255; 255] /\
  parse_all "65535" = oks [65535; 65535; -1; 255; -1; 65535; 65535; 65535; 65535; 65535].
Proof. vm_compute. repeat split. Qed.
(** The last group (699-719) expects -1 from the int and int32_t parsers of 4294967295: the
    signed arithmetic overflows there, so C gives those two calls no meaning (C79). *)
Example test_mu_bbuf_parse_int_overflow :
  parse_all "4294967295" =
  [UB; Ok 4294967295; Ok (-1); Ok 255; Ok (-1); Ok 65535; UB; Ok 4294967295; Ok 4294967295;
   Ok 4294967295].
Proof. vm_compute. reflexivity. Qed.

(** test_mu_bbuf.c:723-746 *)
Example test_mu_bbuf_parse_hex : forall char_signed,
  map (fun s => let m := [cs s] in let* b := icstr m 0 in mu_bbuf_parse_hex char_signed m b)
    [""; "-1"; "-0"; "1"; "f"; "F"; "aa"; "AA"; "xyzzy"]%string
  = oks [0; 0; 0; 1; 15; 15; 170; 170; 0].
Proof. intros []; vm_compute; reflexivity. Qed.

(** test_mu_bbuf.c:748-771; the index -1 arrives as SIZE_MAX *)
Example test_mu_bbuf_get_put_byte : forall p,
  let m := [cs "abcd"; str "wxyz"] in let b := MkBbuf (P 1) 4 in
  map (fun i => let* b := icstr m 0 in mu_bbuf_get_byte m b i) [0; 3; 4; to_size p (-1)]
    = [Ok (true, Some 97); Ok (true, Some 100); Ok (false, None); Ok (false, None)] /\
  (let* r0 := mu_bbuf_put_byte m b 0 97 in
   let* r1 := mu_bbuf_put_byte (snd r0) b 3 100 in
   let* r2 := mu_bbuf_put_byte (snd r1) b 4 42 in
   let* r3 := mu_bbuf_put_byte (snd r2) b (to_size p (-1)) 42 in
   Ok (fst r0, contents (snd r0) b, fst r1, contents (snd r1) b, fst r2, fst r3, contents (snd r3) b))
  = Ok (true, Some (str "axyz"), true, Some (str "axyd"), false, false, Some (str "axyd")).
Proof. intros p; destruct p; vm_compute; split; reflexivity. Qed.
(** test_mu_bbuf.c:773-781 *)
Example test_mu_bbuf_clear : mu_bbuf_clear [str "wxyz"] (MkBbuf (P 0) 4) = Ok [[0; 0; 0; 0]].
Proof. reflexivity. Qed.
(** test_mu_bbuf.c:783-828: only the two calls that copy nothing have a meaning in C; all
    the others read a variable that was never assigned (C80). *)
Example test_mu_bbuf_copy_into : forall p,
  let m := [[1; 2; 3; 4]; [11; 12; 13; 14]] in
  map (mu_bbuf_copy_into p m (MkBbuf (P 0) 4) (MkBbuf (P 1) 4)) [0; 1; 2; 3; 4; -1; -2; -3; -4]
  = [UB; UB; UB; UB; Ok (0, m); UB; UB; UB; Ok (0, m)].
Proof. run. Qed.
(** test_mu_bbuf.c:830-838 *)
Example test_mu_bbuf_reverse : forall p,
  mu_bbuf_reverse p [str "rats"] (MkBbuf (P 0) 4) = Ok [str "star"].
Proof. run. Qed.
(** test_mu_bbuf.c:840-878 *)
Example test_mu_bbuf_rrotate : forall p,
  map (mu_bbuf_rrotate p 9 [[1; 2; 3; 4]] (MkBbuf (P 0) 4)) [0; 1; 2; 3; 4; -1; -2; -3; -4]
  = map (fun l => Ok [l]) [[1; 2; 3; 4]; [4; 1; 2; 3]; [3; 4; 1; 2]; [2; 3; 4; 1]; [1; 2; 3; 4];
                           [2; 3; 4; 1]; [3; 4; 1; 2]; [4; 1; 2; 3]; [1; 2; 3; 4]].
Proof. run. Qed.
(** test_mu_bbuf.c:880-918 *)
Example test_mu_bbuf_rshift : forall p,
  map (mu_bbuf_rshift p [[1; 2; 3; 4]] (MkBbuf (P 0) 4)) [0; 1; 2; 3; 4; -1; -2; -3; -4]
  = map (fun l => Ok [l]) [[1; 2; 3; 4]; [0; 1; 2; 3]; [0; 0; 1; 2]; [0; 0; 0; 1]; [0; 0; 0; 0];
                           [2; 3; 4; 0]; [3; 4; 0; 0]; [4; 0; 0; 0]; [0; 0; 0; 0]].
Proof. run. Qed.

(** ** test_mu_bvec.c *)
Definition ro : memory := [str "abcde"].
Definition rw : memory := [[0; 0; 0; 0; 0]].
Definition junk : bvec := MkBvec (MkBbuf (P 9) 77) 55.
Definition v0 : bvec := mu_bvec_init_rw junk (P 0) 5.
(** test_mu_bvec.c:22-75 *)
Example test_mu_bvec_init :
  mu_bvec_init junk (MkBbuf (P 0) 5) = MkBvec (MkBbuf (P 0) 5) 0 /\
  mu_bvec_init_ro junk (P 0) 5 = MkBvec (MkBbuf (P 0) 5) 0 /\
  v0 = MkBvec (MkBbuf (P 0) 5) 0 /\
  mu_bvec_get_count (mu_bvec_set_count v0 2) = 2 /\
  mu_bvec_get_count (mu_bvec_reset (mu_bvec_set_count v0 2)) = 0 /\
  mu_bvec_get_capacity v0 = 5.
Proof. repeat split. Qed.
(** test_mu_bvec.c:70-94 *)
Example test_mu_bvec_set_count : forall p,
  map (fun c => mu_bvec_get_count (mu_bvec_set_count v0 (to_size p c))) [5; -1; 99999999]
    = [5; size_max p; 99999999] /\
  map (fun c => mu_bvec_get_available p (mu_bvec_set_count v0 (to_size p c))) [0; 5; 6; -1]
    = [5; 0; 0; 0].
Proof. intros p; destruct p; vm_compute; split; reflexivity. Qed.
(** test_mu_bvec.c:96-106 *)
Example test_mu_bvec_ref :
  (mu_bvec_ref rw v0 2, mu_bvec_ref rw v0 5) = (Ok (Some (Ptr 0 2)), Ok None).
Proof. reflexivity. Qed.
(** test_mu_bvec.c:108-138 *)
Fixpoint reads (p : plat) (n : nat) (m : memory) (v : bvec) : list (res (bool * option Z)) :=
  match n with
  | O => []
  | S n => match mu_bvec_read_byte p m v with
           | Ok (ok, b, v) => Ok (ok, b) :: reads p n m v
           | UB => [UB] | NoFuel => [NoFuel]
           end
  end.
Example test_mu_bvec_read_byte : forall p,
  reads p 6 ro (mu_bvec_init_ro junk (P 0) 5)
  = map (fun c => Ok (true, Some c)) (str "abcde") ++ [Ok (false, None)].
Proof. run. Qed.
Fixpoint writes (p : plat) (l : list Z) (m : memory) (v : bvec) : res (list bool * memory) :=
  match l with
  | [] => Ok ([], m)
  | b :: l => let* r := mu_bvec_write_byte p m v b in
              let '(ok, v, m) := r in
              let* s := writes p l m v in Ok (ok :: fst s, snd s)
  end.
Example test_mu_bvec_write_byte : forall p,
  writes p (str "fghijk") rw v0 = Ok ([true; true; true; true; true; false], [str "fghij"]).
Proof. run. Qed.
