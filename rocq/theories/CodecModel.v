(** The JSON documents of the archive and of the ndt7 measurement messages:
    encoding/json applied to the structs of data/result.go, ndt5/control/data.go,
    ndt5/c2s/c2s.go, ndt5/s2c/s2c.go, metadata/metadata.go and
    ndt7/model/archivaldata.go.

    Not modelled: the texts of numbers with a fraction and of times ([k_float], [k_time]
    and [k_read_time] are arbitrary functions), and the list of fields of
    tcp.LinuxTCPInfo, which is not part of the repository ([k_tcp]). *)
From Coq Require Import String ZArith List Bool.
From Verif Require Import Base GoStrings JsonSpec GoJSON GoFloat MessagerModel Web100Model
  Effect QueryModel ControlModel Ndt7Model.
Import ListNotations.
Open Scope Z_scope.

(** ** Struct types as reflection sees them *)

(** The types of the fields.  [TInt lo hi]: an integer kind with that range, unsigned if
    [lo] is 0.  [TTime]: time.Time, as nanoseconds since 1970.  [TPtr]: a pointer to a
    struct.  [TSlice]: a slice of structs; no slice of these structs is empty without
    being nil, except where omitempty hides the difference.  A field: its name, whether
    it is tagged omitempty, its type. *)
Inductive gtype :=
| TStr | TInt (lo hi : Z) | TFloat | TTime | TPtr (fs : gfields) | TSlice (fs : gfields)
with gfields :=
| FNil
| FCons (name : bytes) (omitempty : bool) (t : gtype) (rest : gfields).

(** The values of a type. *)
Fixpoint dent (t : gtype) : Type :=
  match t with
  | TStr => bytes
  | TInt _ _ => Z
  | TFloat => f64
  | TTime => Z
  | TPtr fs => option (dens fs)
  | TSlice fs => list (dens fs)
  end
with dens (fs : gfields) : Type :=
  match fs with
  | FNil => unit
  | FCons _ _ t r => (dent t * dens r)%type
  end.

(** The zero time.Time: 1 January of the year 1. *)
Definition zero_time : Z := - 62135596800 * 10 ^ 9.

(** The zero value of a type. *)
Definition zerot (t : gtype) : dent t :=
  match t with
  | TStr => []
  | TInt _ _ => 0
  | TFloat => f_zero
  | TTime => zero_time
  | TPtr _ => None
  | TSlice _ => []
  end.
Fixpoint zeros (fs : gfields) : dens fs :=
  match fs with
  | FNil => tt
  | FCons _ _ t r => (zerot t, zeros r)
  end.

(** What a process needs to turn values into text and back, and its version strings. *)
Record codec := Codec {
  k_float : f64 -> bytes;                (* strconv.AppendFloat as encoding/json calls it *)
  k_time : Z -> option bytes;            (* Time.MarshalJSON without the quotes; None: error *)
  k_read_time : bytes -> option Z;       (* Time.UnmarshalJSON without the quotes *)
  k_tcp : list (bytes * (Z * Z));        (* the fields of tcp.LinuxTCPInfo with their ranges *)
  k_commit : bytes; k_version : bytes    (* prometheusx.GitShortCommit, version.Version *)
}.

Section Codec.
  Variable k : codec.

  (** ** json.Marshal *)

  (** isEmptyValue of encoding/json.  A struct, here a time, is never empty; no
      floating-point field is tagged omitempty. *)
  Definition empty (t : gtype) : dent t -> bool :=
    match t with
    | TStr => fun s => beqb s []
    | TInt _ _ => fun n => n =? 0
    | TFloat | TTime => fun _ => false
    | TPtr _ => fun o => negb (is_some o)
    | TSlice _ => fun l => match l with [] => true | _ => false end
    end.

  (** All the results, or None if one is None. *)
  Fixpoint collect {A} (l : list (option A)) : option (list A) :=
    match l with
    | [] => Some []
    | None :: _ => None
    | Some x :: r => option_map (cons x) (collect r)
    end.

  Definition object_text (ms : list bytes) : bytes := str "{" ++ join (str ",") ms ++ str "}".
  Definition array_text (es : list bytes) : bytes := str "[" ++ join (str ",") es ++ str "]".

  (** The text of a value, and the texts of the members of a struct; None if json.Marshal
      returns an error. *)
  Fixpoint enct (t : gtype) : dent t -> option bytes :=
    match t with
    | TStr => fun s => Some (json_string s)
    | TInt _ _ => fun n => Some (itoa n)
    | TFloat => fun x => if f_finite x then Some (k_float k x) else None
    | TTime => fun n => option_map (fun w => str """" ++ w ++ str """") (k_time k n)
    | TPtr fs => fun o =>
        match o with
        | None => Some (str "null")
        | Some v => option_map object_text (encs fs v)
        end
    | TSlice fs => fun l =>
        match l with
        | [] => Some (str "null")
        | _ => option_map array_text (collect (map (fun v => option_map object_text (encs fs v)) l))
        end
    end
  with encs (fs : gfields) : dens fs -> option (list bytes) :=
    match fs with
    | FNil => fun _ => Some []
    | FCons name omit t r => fun v =>
        if omit && empty t (fst v) then encs r (snd v)
        else
          match enct t (fst v) with
          | None => None
          | Some x => option_map (cons (json_string name ++ str ":" ++ x)) (encs r (snd v))
          end
    end.

  Definition marshal (fs : gfields) (v : dens fs) : option bytes := option_map object_text (encs fs v).

  (** ** json.Unmarshal *)

  (** An integer literal into an integer kind: strconv.ParseInt or ParseUint and the
      overflow check.  No 64-bit unsigned kind occurs. *)
  Definition read_int (lo hi : Z) (w : bytes) : option Z :=
    match atoi w with
    | Some n =>
        if (lo <=? n) && (n <=? hi) && negb ((lo =? 0) && has_prefix (str "-") w) then Some n else None
    | None => None
    end.

  (** The members of an object, one after the other: the field with exactly that name, or
      else one with that name but for case; a member without a field is skipped.  [dec p]
      stores a value into the first field whose name satisfies [p]. *)
  Definition store {A} (dec : (bytes -> bool) -> A -> json -> option (A * bool)) (v : A) (m : bytes * json)
    : A * bool :=
    match dec (beqb (fst m)) v (snd m) with
    | Some r => r
    | None =>
        match dec (fun name => key_matches name (fst m)) v (snd m) with
        | Some r => r
        | None => (v, false)
        end
    end.
  Definition store_all {A} (dec : (bytes -> bool) -> A -> json -> option (A * bool))
    (l : list (bytes * json)) (a : A * bool) : A * bool :=
    fold_left (fun a m => let '(v, e) := store dec (fst a) m in (v, snd a || e)) l a.

  (** Storing a JSON value: the new value, and whether an error is reported.  An error
      does not stop the decoder here; in Go some do, and the values are then not used.
      The elements of a slice are decoded from zero values: Go reuses those of an older
      slice, which only a repeated member name can bring about.  Time.UnmarshalJSON sees
      the literal before its escapes are decoded; here it sees the text. *)
  Fixpoint dect (t : gtype) : dent t -> json -> dent t * bool :=
    match t with
    | TStr => fun old j =>
        match j with JNull => (old, false) | JStr s => (s, false) | _ => (old, true) end
    | TInt lo hi => fun old j =>
        match j with
        | JNull => (old, false)
        | JNum w => match read_int lo hi w with Some n => (n, false) | None => (old, true) end
        | _ => (old, true)
        end
    | TFloat => fun old j =>
        match j with
        | JNull => (old, false)
        | JNum w => match parse_float w with Some x => (x, false) | None => (old, true) end
        | _ => (old, true)
        end
    | TTime => fun old j =>
        match j with
        | JNull => (old, false)
        | JStr s => match k_read_time k s with Some n => (n, false) | None => (old, true) end
        | _ => (old, true)
        end
    | TPtr fs => fun old j =>
        match j with
        | JNull => (None, false)
        | JObj l =>
            let start := match old with Some v => v | None => zeros fs end in
            let '(v, bad) := store_all (decs fs) l (start, false) in
            (Some v, bad)
        | _ => (old, true)
        end
    | TSlice fs => fun old j =>
        match j with
        | JNull => ([], false)
        | JArr js =>
            fold_right (fun j (a : list (dens fs) * bool) =>
              let '(l, bad) := a in
              match j with
              | JNull => (zeros fs :: l, bad)
              | JObj ms =>
                  let '(v, e) := store_all (decs fs) ms (zeros fs, false) in
                  (v :: l, e || bad)
              | _ => (zeros fs :: l, true)
              end) ([], false) js
        | _ => (old, true)
        end
    end
  (** Storing a value into the first field whose name satisfies [p]. *)
  with decs (fs : gfields) (p : bytes -> bool) : dens fs -> json -> option (dens fs * bool) :=
    match fs with
    | FNil => fun _ _ => None
    | FCons name _ t r => fun v j =>
        if p name then
          let '(x, e) := dect t (fst v) j in Some ((x, snd v), e)
        else
          match decs r p (snd v) j with
          | Some (y, e) => Some ((fst v, y), e)
          | None => None
          end
    end.

  (** json.Unmarshal into a struct with value [v]; None is an error. *)
  Definition unmarshal_into (fs : gfields) (v : dens fs) (text : bytes) : option (dens fs) :=
    match json_parse text with
    | Some JNull => Some v
    | Some (JObj l) => let '(v', bad) := store_all (decs fs) l (v, false) in if bad then None else Some v'
    | _ => None
    end.

  (** ** The structs of the server *)

  Definition int64 : gtype := TInt (- 2 ^ 63) (2 ^ 63 - 1).
  Definition uint32 : gtype := TInt 0 (2 ^ 32 - 1).

  (** metadata.NameValue, metadata/metadata.go:4-7. *)
  Definition name_value_fields : gfields :=
    FCons (str "Name") false TStr (FCons (str "Value") false TStr FNil).
  Definition name_value (nv : bytes * bytes) : dens name_value_fields := (fst nv, (snd nv, tt)).

  (** A struct of integers; the fields [ints l] followed by those of [rest]. *)
  Fixpoint ints (l : list (bytes * (Z * Z))) (rest : gfields) : gfields :=
    match l with
    | [] => rest
    | (name, (lo, hi)) :: l => FCons name false (TInt lo hi) (ints l rest)
    end.
  Fixpoint pack (value : bytes -> Z) (l : list (bytes * (Z * Z))) (rest : gfields) (v : dens rest)
    : dens (ints l rest) :=
    match l with
    | [] => v
    | (name, (lo, hi)) :: l => (value name, pack value l rest v)
    end.
  Fixpoint unpack (l : list (bytes * (Z * Z))) (rest : gfields) : dens (ints l rest) -> list (bytes * Z) * dens rest :=
    match l with
    | [] => fun v => ([], v)
    | (name, (lo, hi)) :: l => fun v =>
        let '(a, b) := unpack l rest (snd v) in ((name, fst v) :: a, b)
    end.

  (** The value of a field of tcp.LinuxTCPInfo. *)
  Definition tcp_value (t : tcp_info) (name : bytes) : Z :=
    match find (fun f => beqb (fst f) name) (ti_fields t) with
    | Some (_, FInt n) => n
    | _ => 0
    end.
  Definition tcp_fields : gfields := ints (k_tcp k) FNil.
  Definition tcp_struct (t : tcp_info) : dens tcp_fields := pack (tcp_value t) (k_tcp k) FNil tt.

  (** model.AppInfo, archivaldata.go:32-37. *)
  Definition app_fields : gfields :=
    FCons (str "NumBytes") false int64 (FCons (str "ElapsedTime") false int64 FNil).
  (** model.ConnectionInfo, archivaldata.go:39-46. *)
  Definition conn_fields : gfields :=
    FCons (str "Client") false TStr (FCons (str "Server") false TStr
    (FCons (str "UUID") true TStr (FCons (str "StartTime") true TTime FNil))).
  Definition elapsed_fields : gfields := FCons (str "ElapsedTime") false int64 FNil.
  (** model.BBRInfo, archivaldata.go:48-54: the fields of inetdiag.BBRInfo are promoted. *)
  Definition bbr_fields : gfields :=
    FCons (str "BW") false int64 (FCons (str "MinRTT") false uint32
    (FCons (str "PacingGain") false uint32 (FCons (str "CwndGain") false uint32 elapsed_fields))).
  (** model.TCPInfo, archivaldata.go:56-61: those of tcp.LinuxTCPInfo are promoted. *)
  Definition tcp7_fields : gfields := ints (k_tcp k) elapsed_fields.
  (** model.Measurement, archivaldata.go:23-30. *)
  Definition measurement_fields : gfields :=
    FCons (str "AppInfo") true (TPtr app_fields)
    (FCons (str "ConnectionInfo") true (TPtr conn_fields)
    (FCons (str "BBRInfo") true (TPtr bbr_fields)
    (FCons (str "TCPInfo") true (TPtr tcp7_fields) FNil))).

  Definition conn_struct (c : conn_info) : dens conn_fields :=
    (ci_client c, (ci_server c, (ci_uuid c, (ci_start c, tt)))).
  Definition bbr_struct (b : bbr_info * Z) : dens bbr_fields :=
    (b_bw (fst b), (b_min_rtt (fst b), (b_pacing_gain (fst b), (b_cwnd_gain (fst b), (snd b, tt))))).
  Definition tcp7_struct (t : tcp_info * Z) : dens tcp7_fields :=
    pack (tcp_value (fst t)) (k_tcp k) elapsed_fields (snd t, tt).
  Definition measurement_struct (m : measurement) : dens measurement_fields :=
    (option_map (fun a => (fst a, (snd a, tt))) (m_app m),
     (option_map conn_struct (m_conn m),
      (option_map bbr_struct (m_bbr m),
       (option_map tcp7_struct (m_tcp m), tt)))).

  (** The way back: the model's view of a decoded struct. *)
  Definition int_of (l : list (bytes * Z)) (name : bytes) : Z :=
    match find (fun f => beqb (fst f) name) l with Some (_, n) => n | None => 0 end.
  Definition tcp_of (l : list (bytes * Z)) : tcp_info :=
    TcpInfo (int_of l (str "RTT")) (int_of l (str "SndMSS")) (int_of l (str "SegsOut"))
            (int_of l (str "BytesAcked")) (int_of l (str "BytesReceived"))
            (map (fun f => (fst f, FInt (snd f))) l).
  Definition measurement_of (v : dens measurement_fields) : measurement :=
    let '(a, (c, (b, (t, _)))) := v in
    Measurement
      (option_map (fun a : dens app_fields => let '(n, (e, _)) := a in (n, e)) a)
      (option_map (fun c : dens conn_fields => let '(x, (y, (u, (s, _)))) := c in ConnInfo x y u s) c)
      (option_map (fun b : dens bbr_fields =>
         let '(bw, (rtt, (pg, (cg, (e, _))))) := b in (BBRInfo bw rtt pg cg, e)) b)
      (option_map (fun t : dens tcp7_fields =>
         let '(l, (e, _)) := unpack (k_tcp k) elapsed_fields t in (tcp_of l, e)) t).

  (** json.Unmarshal into a new model.Measurement, receiver.go:83-84. *)
  Definition decode_measurement (text : bytes) : option measurement :=
    option_map measurement_of (unmarshal_into measurement_fields (zeros measurement_fields) text).

  (** The message WriteJSON of gorilla/websocket sends for a measurement
      (sender.go:85 and :57): json.Encoder adds a line feed. *)
  Definition encode_measurement (m : measurement) : option bytes :=
    option_map (fun d => d ++ [10]) (marshal measurement_fields (measurement_struct m)).

  (** A time, where the zero time is left out of the record. *)
  Definition time_of (t : option Z) : Z := match t with Some n => n | None => zero_time end.

  (** model.ArchivalData, archivaldata.go:12-20. *)
  Definition archival_fields : gfields :=
    FCons (str "UUID") false TStr (FCons (str "StartTime") false TTime (FCons (str "EndTime") false TTime
    (FCons (str "ServerMeasurements") false (TSlice measurement_fields)
    (FCons (str "ClientMeasurements") false (TSlice measurement_fields)
    (FCons (str "ClientMetadata") true (TSlice name_value_fields)
    (FCons (str "ServerMetadata") true (TSlice name_value_fields) FNil)))))).
  Definition archival_struct (a : archival) : dens archival_fields :=
    (a_uuid a, (time_of (a_start a), (time_of (a_end a),
     (map measurement_struct (a_server a), (map measurement_struct (a_client a),
      (map name_value (a_client_meta a), (map name_value (a_server_meta a), tt))))))).

  (** The members NDT5Result and NDT7Result begin with, data/result.go:30-44 and :52-66. *)
  Definition header_fields (rest : gfields) : gfields :=
    FCons (str "GitShortCommit") false TStr (FCons (str "Version") false TStr
    (FCons (str "ServerIP") false TStr (FCons (str "ServerPort") false int64
    (FCons (str "ClientIP") false TStr (FCons (str "ClientPort") false int64
    (FCons (str "StartTime") false TTime (FCons (str "EndTime") false TTime rest))))))).

  (** data.NDT7Result, data/result.go:51-71, and json.Marshal of it, results/file.go:94-101. *)
  Definition ndt7_fields : gfields :=
    header_fields
      (FCons (str "Upload") true (TPtr archival_fields) (FCons (str "Download") true (TPtr archival_fields) FNil)).
  Definition ndt7_struct (r : result7) : dens ndt7_fields :=
    (k_commit k, (k_version k,
     (n_server_ip r, (n_server_port r, (n_client_ip r, (n_client_port r, (n_start r, (n_end r,
      (option_map archival_struct (n_upload r), (option_map archival_struct (n_download r), tt)))))))))).
  Definition encode7 (r : result7) : option bytes := marshal ndt7_fields (ndt7_struct r).

  (** control.ArchivalData, ndt5/control/data.go:8-16. *)
  Definition control_fields : gfields :=
    FCons (str "UUID") false TStr (FCons (str "Protocol") false TStr (FCons (str "MessageProtocol") false TStr
    (FCons (str "ClientMetadata") true (TSlice name_value_fields)
    (FCons (str "ServerMetadata") true (TSlice name_value_fields) FNil)))).
  (** c2s.ArchivalData, c2s.go:18-37. *)
  Definition c2s_fields : gfields :=
    FCons (str "ServerIP") false TStr (FCons (str "ServerPort") false int64
    (FCons (str "ClientIP") false TStr (FCons (str "ClientPort") false int64
    (FCons (str "UUID") false TStr (FCons (str "StartTime") false TTime (FCons (str "EndTime") false TTime
    (FCons (str "MeanThroughputMbps") false TFloat (FCons (str "Error") true TStr FNil)))))))).
  (** s2c.ArchivalData, s2c.go:19-46; a time.Duration is an int64. *)
  Definition s2c_fields : gfields :=
    FCons (str "UUID") false TStr
    (FCons (str "ServerIP") false TStr (FCons (str "ServerPort") false int64
    (FCons (str "ClientIP") false TStr (FCons (str "ClientPort") false int64
    (FCons (str "StartTime") false TTime (FCons (str "EndTime") false TTime
    (FCons (str "MeanThroughputMbps") false TFloat
    (FCons (str "MinRTT") false int64 (FCons (str "MaxRTT") false int64 (FCons (str "SumRTT") false int64
    (FCons (str "CountRTT") false uint32
    (FCons (str "ClientReportedMbps") false TFloat
    (FCons (str "TCPInfo") true (TPtr tcp_fields)
    (FCons (str "Error") true TStr FNil)))))))))))))).

  (** [text]: error.Error(). *)
  Definition error_text (text : err -> bytes) (e : option err) : bytes :=
    match e with Some e => text e | None => [] end.
  Definition control_struct (r : record) : dens control_fields :=
    (r_uuid r, (r_protocol r, (r_message_protocol r,
     (map name_value (r_client_meta r), (map name_value (r_server_meta r), tt))))).
  Definition c2s_struct (text : err -> bytes) (u : c2s_data) : dens c2s_fields :=
    (u_server_ip u, (u_server_port u, (u_client_ip u, (u_client_port u, (u_uuid u,
     (time_of (u_start u), (time_of (u_end u), (u_mean u, (error_text text (u_error u), tt))))))))).
  Definition s2c_struct (text : err -> bytes) (d : s2c_data) : dens s2c_fields :=
    (d_uuid d, (d_server_ip d, (d_server_port d, (d_client_ip d, (d_client_port d,
     (time_of (d_start d), (time_of (d_end d), (d_mean d,
      (d_min_rtt d, (d_max_rtt d, (d_sum_rtt d, (d_count_rtt d, (d_client_mbps d,
       (option_map tcp_struct (d_tcp_info d), (error_text text (d_error d), tt))))))))))))))).

  (** data.NDT5Result, data/result.go:29-47, and what json.Encoder writes for it, ndt5.go:58-59.
      Control is never nil. *)
  Definition ndt5_fields : gfields :=
    header_fields
      (FCons (str "Control") true (TPtr control_fields)
      (FCons (str "C2S") true (TPtr c2s_fields) (FCons (str "S2C") true (TPtr s2c_fields) FNil))).
  Definition ndt5_struct (text : err -> bytes) (r : record) : dens ndt5_fields :=
    (k_commit k, (k_version k,
     (r_server_ip r, (r_server_port r, (r_client_ip r, (r_client_port r, (r_start r, (time_of (r_end r),
      (Some (control_struct r),
       (option_map (c2s_struct text) (r_c2s r), (option_map (s2c_struct text) (r_s2c r), tt))))))))))).
  Definition encode5 (text : err -> bytes) (r : record) : option bytes :=
    option_map (fun d => d ++ [10]) (marshal ndt5_fields (ndt5_struct text r)).
End Codec.
