(** The Gregorian calendar and the fixed-width notation of dates, independent of the model. *)
From Coq Require Import String.
From Verif Require Import Base.
Local Open Scope Z_scope.

Definition leap (y : Z) : bool := (y mod 4 =? 0) && (negb (y mod 100 =? 0) || (y mod 400 =? 0)).
Definition month_len (y m : Z) : Z :=
  if m =? 2 then (if leap y then 29 else 28)
  else if (m =? 4) || (m =? 6) || (m =? 9) || (m =? 11) then 30 else 31.
Definition valid_day (dt : Z * Z * Z) : Prop :=
  let '(y, m, d) := dt in 1 <= m <= 12 /\ 1 <= d <= month_len y m.
Definition next_day (dt : Z * Z * Z) : Z * Z * Z :=
  let '(y, m, d) := dt in
  if d <? month_len y m then (y, m, d + 1) else if m <? 12 then (y, m + 1, 1) else (y + 1, 1, 1).

(** Day [z] after 1 January 1970 is the calendar day [d]. *)
Inductive civil : Z -> Z * Z * Z -> Prop :=
| civil_epoch : civil 0 (1970, 1, 1)
| civil_next z d : civil z d -> civil (z + 1) (next_day d)
| civil_prev z d : valid_day d -> civil (z + 1) (next_day d) -> civil z d.

Definition two (v : Z) : list Z := [48 + v / 10; 48 + v mod 10].
Definition four (v : Z) : list Z := two (v / 100) ++ two (v mod 100).

(** ISO 32000-1, 7.9.4: the zone [O HH ' mm] and the date [D:YYYYMMDDHHmmSS] with a zone *)
Definition pdf_zone (o : option Z) (t : list Z) : Prop :=
  match o with
  | None => t = []
  | Some o =>
    o = 0 /\ t = [90] \/
    exists h m, 0 <= h <= 23 /\ 0 <= m <= 59 /\
    (exists s, (s = 43 /\ o = h * 60 + m \/ s = 45 /\ o = - (h * 60 + m)) /\
      (t = s :: two h ++ [39] ++ two m ++ [39] \/ t = s :: two h ++ [39] ++ two m \/
       m = 0 /\ (t = s :: two h \/ t = s :: two h ++ [39])))
  end.
