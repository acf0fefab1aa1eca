(** What chrono 0.4.30 prints for [Utc.timestamp_opt(t, 0).unwrap().to_rfc3339()].
    Used only for concrete runs; the theorems hold for any [en_time]. *)
From Verif Require Import Bytes.

Local Open Scope Z_scope.

(** Civil date of a day number counted from 1970-01-01 (proleptic Gregorian).
    For local.rs 264 *)
Definition civil (days : Z) : Z * Z * Z :=
  let z := days + 719468 in
  let era := z / 146097 in
  let doe := z - era * 146097 in
  let yoe := (doe - doe / 1460 + doe / 36524 - doe / 146096) / 365 in
  let doy := doe - (365 * yoe + yoe / 4 - yoe / 100) in
  let mp := (5 * doy + 2) / 153 in
  let d := doy - (153 * mp + 2) / 5 + 1 in
  let m := if mp <? 10 then mp + 3 else mp - 9 in
  let y := yoe + era * 400 + (if m <=? 2 then 1 else 0) in
  (y, m, d).

(** Two digits. *)
Definition two (n : Z) : bytes := pad0 2 (dec (Z.to_N n)).

(** Years 0..9999 have four digits; others a sign and at least four digits. *)
Definition year (y : Z) : bytes :=
  if (0 <=? y) && (y <=? 9999) then pad0 4 (dec (Z.to_N y))
  else (if y <? 0 then MINUS else PLUS) :: pad0 4 (dec (Z.to_N (Z.abs y))).

(** chrono's range: years -262144 to 262143. *)
Definition rfc3339 (t : Z) : option bytes :=
  let days := t / 86400 in
  let s := t - days * 86400 in
  let '(y, m, d) := civil days in
  if (-262144 <=? y) && (y <=? 262143) then
    Some (year y ++ bs "-" ++ two m ++ bs "-" ++ two d ++ bs "T" ++
          two (s / 3600) ++ bs ":" ++ two ((s / 60) mod 60) ++ bs ":" ++ two (s mod 60) ++
          bs "+00:00")
  else None.

Example rfc3339_test : rfc3339 1000684800 = Some (bs "2001-09-17T00:00:00+00:00").
Proof. vm_compute. reflexivity. Qed.
Example rfc3339_epoch : rfc3339 0 = Some (bs "1970-01-01T00:00:00+00:00").
Proof. vm_compute. reflexivity. Qed.
Example rfc3339_leap : rfc3339 951868799 = Some (bs "2000-02-29T23:59:59+00:00").
Proof. vm_compute. reflexivity. Qed.
Example rfc3339_panic : rfc3339 9999999999999999 = None.
Proof. vm_compute. reflexivity. Qed.
