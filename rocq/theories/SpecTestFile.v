(** Specification: the format of the files GraphemeBreakTest.txt, WordBreakTest.txt and SentenceBreakTest.txt, with lines such as
    "÷ 0020 × 0308 ÷ 0020 ÷	# comment", and of the Go source that lists such tests. *)
From Coq Require Import String.
From Verif Require Import Base SpecUtf8 SpecData SpecDataFile SpecGoSource.
Local Open Scope N_scope.

(** * The test file *)
Definition div : bytes := [0xC3; 0xB7].      (* ÷ in UTF-8 *)
Definition mul : bytes := [0xC3; 0x97].      (* × *)
Section Digits.
  (** Code points have at least this many hexadecimal digits: 4 in the files of the Unicode Character Database. *)
  Variable least : nat.
  Definition code_point (s : bytes) (cp : N) : Prop := hexadecimal s cp /\ (least <= length s)%nat /\ scalar cp.
  (** Code points with × between them: " 0020 × 0308 ". *)
  Inductive unbroken : bytes -> list N -> Prop :=
    | unbroken_one : forall s cp, code_point s cp -> unbroken ([0x20] ++ s ++ [0x20]) [cp]
    | unbroken_more : forall s cp t cps, code_point s cp -> unbroken t cps -> unbroken ([0x20] ++ s ++ [0x20] ++ mul ++ t) (cp :: cps).
  (** ÷ before, between and after them. *)
  Inductive marked : bytes -> list (list N) -> Prop :=
    | marked_end : marked div []
    | marked_more : forall s cps t segs, unbroken s cps -> marked t segs -> marked (div ++ s ++ t) (cps :: segs).
  (** A line without its end: a remark, or the marked text of one test and its comment, with at most three blanks between them. *)
  Inductive test_line : bytes -> list (list (list N) * bytes) -> Prop :=
    | line_remark : forall c, Forall (fun b => b <> 0x0A) c -> test_line (0x23 :: c) []
    | line_test : forall s segs w c, marked s segs -> blanks w -> (length w < 4)%nat -> Forall (fun b => b <> 0x0A /\ b <> 0x23) c ->
        test_line (s ++ w ++ [0x23] ++ c) [(segs, c)].
  (** A line end is not mistaken for a part of the line. *)
  Definition no_cr (l : bytes) : Prop := forall r, l <> r ++ [0x0D].
  Inductive line_end : bytes -> Prop := lf : line_end [0x0A] | crlf : line_end [0x0D; 0x0A].
  (** Lines, each with its end, and the tests in them. *)
  Inductive test_lines : bytes -> list (list (list N) * bytes) -> Prop :=
    | lines_none : test_lines [] []
    | lines_more : forall l e f ts ts', test_line l ts -> no_cr l -> line_end e -> test_lines f ts' -> test_lines (l ++ e ++ f) (ts ++ ts').
  (** The last line may be without its end. *)
  Inductive test_file : bytes -> list (list (list N) * bytes) -> Prop :=
    | file_ended : forall f ts, test_lines f ts -> test_file f ts
    | file_not_ended : forall f l ts ts', test_lines f ts -> test_line l ts' -> no_cr l -> test_file (f ++ l) (ts ++ ts').
End Digits.

(** * The source: what an element of a composite literal stands for. *)
Inductive listing {A} (elem : bytes -> A -> Prop) : bytes -> list A -> Prop :=
  | listing_one : forall s x, elem s x -> listing elem s [x]
  | listing_more : forall s x t l, elem s x -> listing elem t l -> listing elem (s ++ str ", " ++ t) (x :: l).
Definition byte_literal (s : bytes) (b : N) : Prop := number s = Some b.
(** []byte{0xd, 0xa} *)
Inductive bytes_literal : bytes -> bytes -> Prop :=
  | bytes_nil : bytes_literal (str "[]byte(nil)") []
  | bytes_some : forall s b, listing byte_literal s b -> bytes_literal (str "[]byte{" ++ s ++ str "}") b.
(** {0xd, 0xa} as an element of a [][]byte. *)
Inductive inner_literal : bytes -> bytes -> Prop :=
  | inner_nil : inner_literal (str "[]uint8(nil)") []
  | inner_some : forall s b, listing byte_literal s b -> inner_literal (str "{" ++ s ++ str "}") b.
(** [][]byte{{0xd}, {0xa}} *)
Inductive slices_literal : bytes -> list bytes -> Prop :=
  | slices_nil : slices_literal (str "[][]uint8(nil)") []
  | slices_some : forall s l, listing inner_literal s l -> slices_literal (str "[][]byte{" ++ s ++ str "}") l.

Definition line (s : bytes) : bytes := s ++ [0x0A].
Definition indented (s : bytes) : bytes := 0x09 :: s ++ [0x0A].
Section Source.
  Variable quote : bytes -> bytes.
  (** A test: input, expected, comment. *)
  Inductive test_literal : bytes -> bytes * list bytes * bytes -> Prop :=
    | a_test : forall i input e expected c, bytes_literal i input -> slices_literal e expected ->
        test_literal (line (str "{") ++ indented (str "input: " ++ i ++ str ",") ++ indented (str "expected: " ++ e ++ str ",") ++ indented (str "comment: " ++ quote c ++ str ",") ++ line (str "},"))
          (input, expected, c).
  Inductive test_literals : bytes -> list (bytes * list bytes * bytes) -> Prop :=
    | tests_none : test_literals [] []
    | tests_more : forall s t r ts, test_literal s t -> test_literals r ts -> test_literals (s ++ r) (t :: ts).
  (** The file: a package, its origin, the type and an array of as many tests as there are. *)
  Inductive test_source (pkg url : bytes) : bytes -> list (bytes * list bytes * bytes) -> Prop :=
    | a_source : forall n s tests, number n = Some (N.of_nat (length tests)) -> test_literals s tests ->
        test_source pkg url
          (line (str "package " ++ pkg ++ str "_test") ++ line []
           ++ indented (str "// generated by github.com/clipperhouse/uax29/v2") ++ indented (str "// from " ++ url) ++ line []
           ++ line (str "type unicodeTest struct {") ++ indented (str "input    []byte") ++ indented (str "expected [][]byte") ++ indented (str "comment  string") ++ line (str "}") ++ line []
           ++ line (str "var unicodeTests = [" ++ n ++ str "]unicodeTest {") ++ s ++ line (str "}") ++ line []) tests.
End Source.
(** A text inside another. *)
Definition contains (s p : bytes) : Prop := exists a b, s = a ++ p ++ b.
