(** Specification of the page of the system (/system.json) and of /cpuload. *)
From Coq Require Import ZArith List Bool.
From Verif Require Import Base Config ConfigSpec Json Tic TicSpec Pages Sse Cpu CpuSpec Web Device ScreenSpec.
Import ListNotations.
Open Scope Z_scope.

(** A size in words: below 1024 the bytes; else in the largest unit [u] not above it, rounded to the nearest hundredth. *)
Definition size_text (bytes : Z) (t : list Z) : Prop :=
  t = dec bytes ++ str " byte" /\ bytes < 1024 \/
  exists u unit h, In (u, unit) [(1024, str " kB"); (1048576, str " MB"); (1073741824, str " GB")] /\
    u <= bytes < 1024 * u /\ t = dec (h / 100) ++ str "." ++ pad0 2 (dec (h mod 100)) ++ unit /\ 2 * Z.abs (100 * bytes - h * u) <= u.
(** A duration in words. *)
Definition duration_text (seconds : Z) (t : list Z) : Prop :=
  exists d h m s, t = dec d ++ str " days " ++ pad0 2 (dec h) ++ str " h " ++ pad0 2 (dec m) ++ str " m " ++ pad0 2 (dec s) ++ str " sec" /\
    0 <= d /\ 0 <= h < 24 /\ 0 <= m < 60 /\ 0 <= s < 60 /\ d * 86400 + h * 3600 + m * 60 + s = seconds.

(** What a row tells, and its value in the page. *)
Inductive told := Says (t : list Z) | Counts (n : Z) | Weighs (bytes : Z) | Lasts (seconds : Z).
Definition tells (w : told) (v : json) : Prop :=
  match w with
  | Says t => v = JStr t
  | Counts n => v = JNum (dec n)
  | Weighs bytes => exists t, v = JStr t /\ size_text bytes t
  | Lasts seconds => exists t, v = JStr t /\ duration_text seconds t
  end.
(** A row: is it only for the clients with full access, its name, what it tells. *)
Definition row := (bool * list Z * told)%type.
Definition row_tells (r : row) (v : json) : Prop :=
  exists value, v = JObj [(str "na", JStr (snd (fst r))); (str "va", value)] /\ tells (snd r) value.

(** The rows. [i]: what the SDK says; [clients]: number of live streams; [load]: load in percent, in the programs that measure it. *)
Definition system_rows (s : settings) (i : sysinfo) (clients : Z) (load : option Z) : list row :=
  let all := fun n w => (false, n, w) in let full := fun n w => (true, n, w) in
  [ all (str "Uptime") (Lasts (i_micros i / 1000000)); all (str "Timestamp") (Says (i_now i)) ] ++
  (if i_connected i then
     [ full (str "Wi-Fi R" ++ e_acute ++ str "seau") (Says (s_ssid s)); full (str "Wi-Fi RSSI") (Says (decs (i_rssi i) ++ str " dB"));
       full (str "Adresse MAC station") (Says (i_mac i)) ]
   else []) ++
  [ all (str "Nb reconnexions Wi-Fi") (Counts (i_reconnects i));
    full (str "WifInfo Version (Firmware)") (Says (i_version i)); full (str "Compil" ++ e_acute ++ str " le") (Says (i_date i));
    full (str "Options") (Says (i_flags i)); full (str "SDK Version") (Says (i_sdk i)); full (str "Chip ID") (Says (str "0x" ++ hex6 (i_chip i)));
    full (str "Taille m" ++ e_acute ++ str "moire Flash") (Weighs (i_flash i)); full (str "Taille Firmware") (Weighs (i_sketch i));
    all (str "M" ++ e_acute ++ str "moire Flash libre") (Weighs (i_free i)); all (str "M" ++ e_acute ++ str "moire RAM libre") (Weighs (i_heap i)) ] ++
  match load with Some l => [all (str "CPU") (Says (dec l ++ str " %"))] | None => [] end ++
  [ all (str "FS Total") (Weighs (i_total i)); all (str "FS Utilis" ++ e_acute ++ str "s") (Weighs (i_used i));
    all (str "FS Occupation") (Says (dec (100 * i_used i / i_total i) ++ str " %"));
    all (str "SSE Clients") (Counts clients); all (str "SSE Connexions") (Says (i_remotes i)) ].
(** What a restricted client is shown. *)
Definition public_rows (l : list row) : list row := filter (fun r => negb (fst (fst r))) l.

(** Sensible answers of the SDK: the texts can be copied between quotes, the sizes have 32 bits, the module has run for less than 68
    years, the file system is mounted and has less than 42 MB. *)
Definition info_ok (i : sysinfo) : Prop :=
  Forall (fun t => quotable t = true) [i_now i; i_mac i; i_version i; i_date i; i_flags i; i_sdk i; i_remotes i] /\
  Forall (fun n => 0 <= n < 4294967296) [i_flash i; i_sketch i; i_free i; i_heap i; i_reconnects i; i_chip i] /\
  0 <= i_micros i < 2147483648 * 1000000 /\ 0 <= i_used i <= i_total i /\ 0 < i_total i < 42000000.

(** The instants of the turns of the main loop, by millis(). *)
Fixpoint turn_times (es : list devent) : list Z :=
  match es with
  | [] => []
  | DTurn a :: r => a_now a :: turn_times r
  | _ :: r => turn_times r
  end.
(** The number of live streams. *)
Definition live_streams (o : list out) (n : Z) : Prop :=
  exists ids, NoDup ids /\ (forall id, In id ids <-> is_open id o) /\ n = Z.of_nat (length ids).
(** The load shown: none in a program that does not measure it; else, if the turns of the loop were [ds] ms after the start and no
    second had more than 85000 of them, the percentage of missing turns over ten seconds (see C47). *)
Definition load_is (now : Z) (es : list devent) (i : sysinfo) (load : option Z) : Prop :=
  match i_cpu i with
  | None => load = None
  | Some _ => exists l, load = Some l /\
      forall ds, 0 <= now < 4294967296 -> turn_times es = times now ds -> spaced 1000 0 ds ->
        Forall (fun n => n <= 85000) (counted 0 (firings 1000 0 ds)) -> l = 100 * (85000 - average (counted 0 (firings 1000 0 ds))) / 85000
  end.
(** A text written on the right in [k] columns. *)
Definition right (k : nat) (t : list Z) : list Z := repeat 32 (k - length t) ++ t.
