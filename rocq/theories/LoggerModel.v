(** * LoggerModel: OnUnpackStreamLogger (handler.go) and what it prints. *)
From Coq Require Import String Ascii List.
From Verif Require Import Base AacModel UtilModel PacketModel DemuxModel.
Import ListNotations.
Local Open Scope list_scope.

Definition lf : string := String "010" EmptyString.
Definition crlf : string := String "013" lf.
(** handler.go:23-25: the tracks, and what was printed to the standard output (fmt.Printf) and to the standard error (println). *)
Record logger := mkLog { lg_tracks : list stream; lg_out : string; lg_err : string }.
Definition lg_new : logger := mkLog [] EmptyString EmptyString.
Definition lg_print (g : logger) (s : string) : logger := mkLog (lg_tracks g) (lg_out g ++ s)%string (lg_err g).

(** handler.go:27-35 OnNewTrack; Add always returns true (tracks.go:9-16), so the Assert holds. *)
Definition lg_new_track (g : logger) (s : stream) : res logger :=
  let g1 := mkLog (tm_add (lg_tracks g) s) (lg_out g) (lg_err g) in
  m <- media_string (st_media s);;
  if AVMediaTypeAudio =? st_media s then
    Ok (lg_print g1 ("tack type: " ++ m ++ " codec: " ++ codec_string (st_codec s) ++ " index: " ++ itoa (st_index s) ++
                     " sample_rate: " ++ itoa (ac_sample_rate (st_audio s)) ++ " channels: " ++ itoa (ac_channels (st_audio s)) ++ crlf)%string)
  else
    Ok (lg_print g1 ("tack type: " ++ m ++ " codec: " ++ codec_string (st_codec s) ++ " index: " ++ itoa (st_index s) ++ crlf)%string).
(** handler.go:37-39 OnTrackComplete. *)
Definition lg_track_complete (g : logger) : logger := lg_print g ("track complete" ++ crlf)%string.
(** handler.go:41-43 OnPacket. *)
Definition lg_packet (g : logger) (p : packet) : res logger :=
  m <- media_string (pk_media p);;
  Ok (lg_print g ("packet type: " ++ m ++ " dts: " ++ itoa (pk_dts p) ++ " pts: " ++ itoa (pk_pts p) ++ crlf)%string).
(** handler.go:45-47 OnTrackNotFind: println writes to the standard error and ends the line with a single line feed. *)
Definition lg_track_not_find (g : logger) : logger :=
  mkLog (lg_tracks g) (lg_out g) (lg_err g ++ "track not find" ++ lf)%string.

(** The logger attached to a demuxer. *)
Definition lg_event (g : logger) (e : event) : res logger :=
  match e with
  | EvNewTrack s => lg_new_track g s
  | EvTrackComplete => Ok (lg_track_complete g)
  | EvTrackNotFind => Ok (lg_track_not_find g)
  | EvPacket p => lg_packet g p
  | _ => Ok g
  end.
Fixpoint lg_session (g : logger) (l : list event) : res logger :=
  match l with [] => Ok g | e :: t => g1 <- lg_event g e;; lg_session g1 t end.
