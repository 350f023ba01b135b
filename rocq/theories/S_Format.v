(** What a reader takes from a number written in a report, independently of how it was written. *)
From Coq Require Import ZArith NArith QArith Qabs String Ascii List DecimalString Permutation.
Import ListNotations.
Local Open Scope string_scope.
Local Open Scope list_scope.
Local Open Scope Q_scope.
Local Infix "+++" := String.append (at level 60, right associativity).

(** The decimal numeral of a natural number, and the number a string of digits stands for. *)
Definition numeral (i : N) : string := NilZero.string_of_uint (N.to_uint i).
Definition means (s : string) (i : N) : Prop :=
  exists d, NilZero.uint_of_string s = Some d /\ N.of_uint d = i.

(** [10^p] as a rational. *)
Definition ten (p : nat) : Q := inject_Z (10 ^ Z.of_nat p).
Definition thousand (k : nat) : Q := inject_Z (1000 ^ Z.of_nat k).

(** [s] is a number with [p] decimals (and no point when there are none) whose value is [v]. *)
Definition decimal (p : nat) (s : string) (v : Q) : Prop :=
  match p with
  | O => exists i, s = numeral i /\ v == inject_Z (Z.of_N i)
  | _ => exists i b f, s = numeral i +++ "." +++ b /\ String.length b = p /\ means b f /\
           v == inject_Z (Z.of_N i) + inject_Z (Z.of_N f) / ten p
  end.

(** The unit letters. *)
Definition letter (k : nat) (s : string) : Prop :=
  (k = 0%nat /\ s = "") \/ (k = 1%nat /\ s = "k") \/ (k = 2%nat /\ s = "M") \/ (k = 3%nat /\ s = "B")
  \/ (k = 4%nat /\ s = "T").

(** The unit that suits a number: the largest one that is not larger than it. *)
Definition unit_of (n : Q) (k : nat) : Prop :=
  (k <= 4)%nat /\ ((0 < k)%nat -> thousand k <= Qabs n) /\ ((k < 4)%nat -> Qabs n < thousand (S k)).

(** [s] reads as the value [v]: a sign, the currency, digits with [p] decimals and a unit letter. *)
Definition reads (currency : string) (p : nat) (negative : bool) (k : nat) (s : string) (v : Q) : Prop :=
  exists body u w, s = (if negative then "-" else "") +++ currency +++ body +++ u /\ letter k u /\
    decimal p body w /\ v == (if negative then -(1) else 1) * w * thousand k.

(** A number written in compact form with [p] decimals: the unit suits it, and what is read is within
    half of the last digit. *)
Definition compact_of (currency : string) (p : nat) (n : Q) (s : string) : Prop :=
  exists neg k v, reads currency p neg k s v /\ (neg = true <-> n < 0) /\ unit_of n k /\
    Qabs (v - n) <= (1 # 2) * thousand k / ten p.
(** An amount of money: as above with one decimal or none, and within a twentieth of the amount when
    that is at least 1 in size. *)
Definition money_of (currency : string) (n : Q) (s : string) : Prop :=
  exists p neg k v, (p <= 1)%nat /\ reads currency p neg k s v /\ (neg = true <-> n < 0) /\ unit_of n k /\
    Qabs (v - n) <= (1 # 2) * thousand k / ten p /\ (1 <= Qabs n -> Qabs (v - n) <= Qabs n / 20).
(** A signed number with [p] decimals. *)
Definition plain_of (p : nat) (n : Q) (s : string) : Prop :=
  exists (neg : bool) body w, s = (if neg then "-" else "") +++ body /\ decimal p body w /\
    (neg = true <-> n < 0) /\ Qabs ((if neg then - w else w) - n) <= (1 # 2) / ten p.

(** A number with one significant digit, of value [v]. *)
Fixpoint zeroes (k : nat) : string := match k with O => "" | S k => "0" +++ zeroes k end.
Definition significant (s : string) (v : Q) : Prop :=
  exists d, (1 <= d <= 9)%N /\
    ((s = numeral d /\ v == inject_Z (Z.of_N d)) \/
     (exists k, (k <= 3)%nat /\ s = "0." +++ zeroes k +++ numeral d /\ v == inject_Z (Z.of_N d) / ten (S k)) \/
     (exists k t, (5 <= k)%nat /\ s = numeral d +++ "e-" +++ t /\ means t (N.of_nat k) /\ (2 <= String.length t)%nat
        /\ v == inject_Z (Z.of_N d) / ten k)).

(** Letters and digits of a column name. *)
Definition small (c : ascii) : Prop := (97 <= N_of_ascii c <= 122)%N.
Definition alphanumeric (c : ascii) : Prop :=
  small c \/ (65 <= N_of_ascii c <= 90)%N \/ (48 <= N_of_ascii c <= 57)%N.
(** The character at a place of a heading made of a name. *)
Definition heading_char (before : option ascii) (c o : ascii) : Prop :=
  let starts := match before with None => True | Some b => ~ alphanumeric b end in
  (c = "_"%char -> o = " "%char) /\
  (small c -> starts -> N_of_ascii o = (N_of_ascii c - 32)%N) /\
  (c <> "_"%char -> ~ (small c /\ starts) -> o = c).
Definition heading (name out : string) : Prop :=
  String.length out = String.length name /\
  forall i c, String.get i name = Some c -> exists o, String.get i out = Some o /\
    heading_char (match i with O => None | S j => String.get j name end) c o.

(** A share written as a whole percentage. *)
Definition whole (x : Q) (s : string) : Prop :=
  exists i, s = (numeral i +++ "%") /\ (Qabs (inject_Z (Z.of_N i) - 100 * x) <= 1 # 2)%Q.
