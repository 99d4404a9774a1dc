(** Model of cicada/platform/linux/unixserial.cpp (class UnixSerial), apart from
    the buffers, which are those of Serial.v.

    The operating system is modelled by the outcomes of the system calls (given
    with each call of open()) and by the table of open descriptors.  Of the
    termios structure only the speed and the character size are modelled. *)
From Coq Require Import ZArith List Bool.
Import ListNotations.
Local Open Scope Z_scope.

(** Values of the constants of <termios.h> on Linux. *)
Definition B0 := 0. Definition B50 := 1. Definition B75 := 2. Definition B110 := 3. Definition B134 := 4. Definition B150 := 5.
Definition B200 := 6. Definition B300 := 7. Definition B600 := 8. Definition B1200 := 9. Definition B1800 := 10. Definition B2400 := 11.
Definition B9600 := 13. Definition B19200 := 14. Definition B38400 := 15.
Definition B57600 := 4097. Definition B115200 := 4098. Definition B230400 := 4099. Definition B460800 := 4100.
Definition B576000 := 4102. Definition B921600 := 4103. Definition B1000000 := 4104. Definition B1152000 := 4105.
Definition B1500000 := 4106. Definition B2000000 := 4107. Definition B2500000 := 4108. Definition B3000000 := 4109.
Definition B3500000 := 4110. Definition B4000000 := 4111.
Definition CS5 := 0. Definition CS6 := 16. Definition CS7 := 32. Definition CS8 := 48.

(** unixserial.h:88-93, the members; [fds]: the descriptors this object has open
    in the operating system; [line]: speed and character size the terminal line
    was last set to. *)
Record unix : Type := mkUnix {
  u_open : bool; u_fd : Z; u_speed : Z; u_bits : Z; u_fds : list Z; u_line : option (Z * Z) }.

(** unixserial.cpp:32-49, constructors *)
Definition unix_new : unix := mkUnix false (-1) B115200 CS8 [] None.

(** unixserial.cpp:93-188, the first switch.  [apple]: compiled with __APPLE__. *)
Definition unix_speed (apple : bool) (rate : Z) : option Z :=
  match rate with
  | 0 => Some B0
  | 50 => Some B50
  | 75 => Some B75
  | 110 => Some B110
  | 134 => Some B134
  | 150 => Some B150
  | 200 => Some B200
  | 300 => Some B300
  | 600 => Some B600
  | 1200 => Some B1200
  | 1800 => Some B1800
  | 2400 => Some B2400
  | 9600 => Some B9600
  | 19200 => Some B19200
  | 38400 => Some B38400
  | 57600 => Some B57600
  | 115200 => Some B115200
  | 230400 => Some B230400
  | _ =>
      if apple then None
      else
        match rate with
        | 460800 => Some B460800
        | 576000 => Some B576000
        | 921600 => Some B921600
        | 1000000 => Some B1000000
        | 1152000 => Some B1152000
        | 1500000 => Some B1500000
        | 2000000 => Some B2000000
        | 2500000 => Some B2500000
        | 3000000 => Some B3000000
        | 3500000 => Some B3500000
        | 4000000 => Some B4000000
        | _ => None
        end
  end.

(** unixserial.cpp:190-205, the second switch *)
Definition unix_bits (bits : Z) : option Z :=
  match bits with
  | 5 => Some CS5
  | 6 => Some CS6
  | 7 => Some CS7
  | 8 => Some CS8
  | _ => None
  end.

(** unixserial.cpp:91-208, setSerialConfig: the speed is stored before the data
    bits are looked at. *)
Definition unix_config (apple : bool) (rate bits : Z) (u : unix) : bool * unix :=
  match unix_speed apple rate with
  | None => (false, u)
  | Some s =>
      let u := mkUnix (u_open u) (u_fd u) s (u_bits u) (u_fds u) (u_line u) in
      match unix_bits bits with
      | None => (false, u)
      | Some b => (true, mkUnix (u_open u) (u_fd u) (u_speed u) b (u_fds u) (u_line u))
      end
  end.

(** The outcome of the system calls during one open(): the descriptor ::open
    returns, or failure; whether it is a terminal; whether tcgetattr, the
    setting of the speeds and tcsetattr succeed. *)
Record oscalls : Type := mkOs { os_open : option Z; os_tty : bool; os_get : bool; os_speed : bool; os_set : bool }.

(** unixserial.cpp:210-218, close() *)
Definition unix_close (u : unix) : unix :=
  mkUnix false (-1) (u_speed u) (u_bits u)
    (if 0 <=? u_fd u then filter (fun f => negb (f =? u_fd u)) (u_fds u) else u_fds u) (u_line u).

(** unixserial.cpp:51-89, open() *)
Definition unix_open (o : oscalls) (u : unix) : bool * unix :=
  match os_open o with
  | None => (false, mkUnix (u_open u) (-1) (u_speed u) (u_bits u) (u_fds u) (u_line u))
  | Some fd =>
      let u := mkUnix (u_open u) fd (u_speed u) (u_bits u) (fd :: u_fds u) (u_line u) in
      if negb (os_tty o) then (false, unix_close u)
      else if negb (os_get o) then (false, u)
      else if negb (os_speed o) then (false, u)
      else if negb (os_set o) then (false, u)
      else (true, mkUnix true (u_fd u) (u_speed u) (u_bits u) (u_fds u) (Some (u_speed u, u_bits u)))
  end.

(** unixserial.h:67-70, isOpen() *)
Definition unix_is_open (u : unix) : bool := u_open u.

(** The calls. *)
Inductive ucall : Type := UOpen (o : oscalls) | UClose | UConfig (rate bits : Z).
Definition unix_call (apple : bool) (c : ucall) (u : unix) : bool * unix :=
  match c with
  | UOpen o => unix_open o u
  | UClose => (true, unix_close u)
  | UConfig rate bits => unix_config apple rate bits u
  end.

(** A history; the kernel returns descriptors that are non-negative and not in
    use. *)
Inductive unix_hist (apple : bool) : unix -> list (ucall * bool) -> unix -> Prop :=
| uh_nil u : unix_hist apple u [] u
| uh_cons u c b u1 h u2 :
    (forall o fd, c = UOpen o -> os_open o = Some fd -> 0 <= fd /\ ~ In fd (u_fds u)) ->
    unix_call apple c u = (b, u1) -> unix_hist apple u1 h u2 -> unix_hist apple u ((c, b) :: h) u2.
