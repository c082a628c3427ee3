(** Model of the argument [datetimeBuilder] of [loads] (python/pythonbuilder.cc 121-143, python/fastrpcmodule.cc 2459-2563), for
    Python 3 and data in the binary format. *)
From Verif Require Import Base Value M_Marshal M_BinUnmarshal M_Python.

Section Builder.
  Variable host : datetime -> datetime.
  Variable pass : bool.     (* allowSurrogates *)
  Variable native : bool.   (* nativeBoolean *)

  (** The callable: it may do what it wants with the world, and returns an object or raises an exception of its own. *)
  Variable W E : Type.
  Variable call : W -> datetime -> W * (py + E).

  (** The arguments it is called with (131-133).  [unixTime] is a [time_t] that is read as an [int]: on the platforms of the model
      the low 32 bits (the C++ standard leaves it undefined). *)
  Definition given (d : datetime) : datetime :=
    mkDT (dt_year d) (dt_month d) (dt_day d) (dt_hour d) (dt_min d) (dt_sec d) (dt_wday d) (s32 (dt_unix d)) (dt_tz d).

  (** The builder, the world, and the exception of the callable that is pending. *)
  Record hooked : Type := mkHooked { h_world : W; h_raised : option E; h_pb : pb }.

  (** All builder calls: [buildDateTime] calls the callable (121-143), the others are as without it. *)
  Definition hook_step (h : hooked) (e : event) : hooked * option fail :=
    match e with
    | EDateTime d =>
        if pb_error (h_pb h) then (h, None) else
        match call (h_world h) (given d) with
        | (w, inl v) => (mkHooked w (h_raised h) (pb_value v (h_pb h)), None)
        | (w, inr x) => (mkHooked w (Some x) (pb_fail (h_pb h)), None)
        end
    | _ => let '(b, f) := pb_step host pass native (h_pb h) e in (mkHooked (h_world h) (h_raised h) b, f)
    end.

  (** What [loads] ends with: as without [datetimeBuilder], or with the exception of the callable. *)
  Inductive hooked_result : Type := H_done (r : pyres (py * option pystr)) | H_raised (x : E).

  (** [loads] (fastrpcmodule.cc 2459-2563). *)
  Definition hooked_loads (w : W) (data : bytes) : W * hooked_result :=
    match unmarshall hooked hook_step TYPE_ANY unm_init (mkHooked w None pb_init) data with
    | (_, h, Some f) => (h_world h, H_done (of_fail f))
    | (_, h, None) =>
        (h_world h,
         match pb_data (h_pb h) with
         | PyRaise e => match h_raised h with Some x => H_raised x | None => H_done (PyRaise e) end
         | PyAbort => H_done PyAbort | PyUndef => H_done PyUndef
         | PyOk (PyFault code msg) => H_done (PyRaise (PE_Fault code msg))
         | PyOk v => match pb_name (h_pb h) with PyOk n => H_done (PyOk (v, n)) | PyRaise e => H_done (PyRaise e) | PyAbort => H_done PyAbort | PyUndef => H_done PyUndef end
         end)
    end.
End Builder.
Arguments h_world {W E}. Arguments h_raised {W E}. Arguments h_pb {W E}. Arguments mkHooked {W E}.
Arguments H_done {E}. Arguments H_raised {E}.
