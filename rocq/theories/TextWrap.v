(** * Text of the kinematic model files (copied by a script; do not edit) *)
From Coq Require Import String List.
Import ListNotations.
Open Scope string_scope.

(** openap/data/wrap/a319.txt:1-36 *)
Definition wrap_a319 : string := "variable              flight phase    name                                   opt    min     max    model    parameters
to_v_lof              takeoff         Liftoff speed                          82.7   72.5    92.9   norm     82.71|7.10
to_d_tof              takeoff         Takeoff distance                       1.51   1.06    2.41   gamma    8.56|0.43|0.14
to_acc_tof            takeoff         Mean takeoff accelaration              1.84   1.38    2.29   norm     1.84|0.28
ic_va_avg             initial_climb   Mean airspeed                          80     73      87     norm     80.26|4.86
ic_vs_avg             initial_climb   Mean vertical rate                     12.27  9.52    15.04  norm     12.28|1.68
cl_d_range            climb           Climb range                            206    157     348    gamma    5.16|138.89|16.28
cl_v_cas_const        climb           Constant CAS                           149    140     159    norm     150.02|6.06
cl_v_mach_const       climb           Constant Mach                          0.77   0.74    0.8    beta     16.21|6.30|0.62|0.20
cl_h_cas_const        climb           Constant CAS crossover altitude        3.2    2.1     6      gamma    5.22|0.99|0.53
cl_h_mach_const       climb           Constant Mach crossover altitude       8.9    8       9.8    norm     8.93|0.55
cl_vs_avg_pre_cas     climb           Mean climb rate, pre-constant-CAS      11.1   8.41    13.8   norm     11.11|1.64
cl_vs_avg_cas_const   climb           Mean climb rate, constant-CAS          10.15  7.63    12.67  norm     10.15|1.53
cl_vs_avg_mach_const  climb           Mean climb rate, constant-Mach         6.07   3.99    8.16   norm     6.08|1.27
cr_d_range            cruise          Cruise range                           299    182     4019   gamma    1.19|173.76|669.46
cr_v_cas_mean         cruise          Mean cruise CAS                        125    119     139    gamma    4.75|114.21|2.92
cr_v_cas_max          cruise          Maximum cruise CAS                     128    121     148    gamma    3.54|116.92|4.46
cr_v_mach_mean        cruise          Mean cruise Mach                       0.77   0.74    0.8    norm     0.77|0.02
cr_v_mach_max         cruise          Maximum cruise Mach                    0.79   0.75    0.82   norm     0.79|0.02
cr_h_init             cruise          Initial cruise altitude                11.54  10.27   11.97  beta     7.48|2.22|8.11|4.08
cr_h_mean             cruise          Mean cruise altitude                   11.54  10.21   11.97  beta     7.00|2.13|8.10|4.09
cr_h_max              cruise          Maximum cruise altitude                11.64  10.3    12.03  beta     6.12|1.89|8.42|3.79
de_d_range            descent         Descent range                          233    176     473    gamma    3.15|163.83|32.50
de_v_mach_const       descent         Constant Mach                          0.76   0.72    0.8    norm     0.76|0.03
de_v_cas_const        descent         Constant CAS                           145    136     164    gamma    6.49|126.84|3.35
de_h_mach_const       descent         Constant Mach crossover altitude       9.2    7.7     10.7   norm     9.18|0.92
de_h_cas_const        descent         Constant CAS crossover altitude        5.3    2.6     8.1    norm     5.34|1.66
de_vs_avg_mach_const  descent         Mean descent rate, constant-Mach       -5.87  -12.13  -2.41  beta     3.27|2.09|-16.27|15.37
de_vs_avg_cas_const   descent         Mean descent rate, constant-CAS        -9.84  -14.22  -5.45  norm     -9.83|2.66
de_vs_avg_after_cas   descent         Mean descent rate, after-constant-CAS  -5.88  -7.69   -4.07  norm     -5.88|1.10
fa_va_avg             final_approach  Mean airspeed                          67     63      76     gamma    6.43|57.71|1.84
fa_vs_avg             final_approach  Mean vertical rate                     -3.42  -4.19   -2.65  norm     -3.42|0.47
fa_agl                final_approach  Approach angle                         3.15   2.25    4.05   norm     3.15|0.55
ld_v_app              landing         Touchdown speed                        66.2   61      71.5   norm     66.23|3.65
ld_d_brk              landing         Braking distance                       1.38   0.71    4.18   gamma    2.62|0.28|0.68
ld_acc_brk            landing         Mean braking acceleration              -0.87  -1.79   -0.35  beta     5.62|2.87|-2.90|2.86".
(** openap/data/wrap/a320.txt:1-36 *)
Definition wrap_a320 : string := "variable              flight phase    name                                   opt     min     max    model    parameters
to_v_lof              takeoff         Liftoff speed                          85.3    74.5    96     norm     85.29|7.47
to_d_tof              takeoff         Takeoff distance                       1.65    1.06    2.24   norm     1.65|0.36
to_acc_tof            takeoff         Mean takeoff accelaration              1.93    1.5     2.37   norm     1.93|0.27
ic_va_avg             initial_climb   Mean airspeed                          83      76      89     norm     83.31|4.64
ic_vs_avg             initial_climb   Mean vertical rate                     12.59   9.15    16.04  norm     12.59|2.09
cl_d_range            climb           Climb range                            257     141     374    norm     258.08|45.16
cl_v_cas_const        climb           Constant CAS                           151     140     161    norm     151.04|6.27
cl_v_mach_const       climb           Constant Mach                          0.78    0.73    0.8    beta     12.39|3.68|0.60|0.22
cl_h_cas_const        climb           Constant CAS crossover altitude        3.7     1.9     5.4    norm     3.66|1.07
cl_h_mach_const       climb           Constant Mach crossover altitude       8.8     7.9     9.8    norm     8.80|0.58
cl_vs_avg_pre_cas     climb           Mean climb rate, pre-constant-CAS      10.25   7.63    12.87  norm     10.25|1.59
cl_vs_avg_cas_const   climb           Mean climb rate, constant-CAS          8.43    6.28    10.6   norm     8.44|1.31
cl_vs_avg_mach_const  climb           Mean climb rate, constant-Mach         5.28    3.6     6.97   norm     5.29|1.03
cr_d_range            cruise          Cruise range                           856     487     4352   gamma    1.71|453.95|569.12
cr_v_cas_mean         cruise          Mean cruise CAS                        133     124     143    norm     133.62|5.82
cr_v_cas_max          cruise          Maximum cruise CAS                     135     128     154    gamma    4.89|121.28|3.70
cr_v_mach_mean        cruise          Mean cruise Mach                       0.78    0.75    0.8    beta     17.82|5.05|0.62|0.20
cr_v_mach_max         cruise          Maximum cruise Mach                    0.8     0.77    0.83   norm     0.80|0.02
cr_h_init             cruise          Initial cruise altitude                10.82   9.79    11.85  norm     10.82|0.63
cr_h_mean             cruise          Mean cruise altitude                   10.92   10      11.84  norm     10.92|0.56
cr_h_max              cruise          Maximum cruise altitude                11.06   10.2    11.92  norm     11.06|0.52
de_d_range            descent         Descent range                          234     180     457    gamma    3.15|169.28|30.17
de_v_mach_const       descent         Constant Mach                          0.77    0.73    0.81   norm     0.77|0.02
de_v_cas_const        descent         Constant CAS                           144     135     163    gamma    7.43|124.57|3.15
de_h_mach_const       descent         Constant Mach crossover altitude       9.6     7.9     10.7   beta     4.91|2.91|6.03|5.37
de_h_cas_const        descent         Constant CAS crossover altitude        5.7     3       8.5    norm     5.75|1.66
de_vs_avg_mach_const  descent         Mean descent rate, constant-Mach       -5.76   -13.45  -2.26  beta     3.52|1.95|-19.00|18.22
de_vs_avg_cas_const   descent         Mean descent rate, constant-CAS        -10.03  -14.68  -5.35  norm     -10.02|2.84
de_vs_avg_after_cas   descent         Mean descent rate, after-constant-CAS  -6.08   -7.88   -4.27  norm     -6.08|1.10
fa_va_avg             final_approach  Mean airspeed                          72      67      77     norm     72.43|3.49
fa_vs_avg             final_approach  Mean vertical rate                     -3.55   -4.18   -2.91  norm     -3.55|0.39
fa_agl                final_approach  Approach angle                         3.06    2.4     3.73   norm     3.07|0.41
ld_v_app              landing         Touchdown speed                        69.4    62.7    76     norm     69.37|4.61
ld_d_brk              landing         Braking distance                       1.08    0.63    3.21   gamma    2.36|0.35|0.54
ld_acc_brk            landing         Mean braking acceleration              -1.22   -1.97   -0.47  norm     -1.22|0.46".
(** openap/data/wrap/a321.txt:1-36 *)
Definition wrap_a321 : string := "variable              flight phase    name                                   opt    min     max    model    parameters
to_v_lof              takeoff         Liftoff speed                          90.8   80.1    101.5  norm     90.80|7.45
to_d_tof              takeoff         Takeoff distance                       1.85   1.18    2.52   norm     1.85|0.41
to_acc_tof            takeoff         Mean takeoff accelaration              1.95   1.49    2.42   norm     1.95|0.28
ic_va_avg             initial_climb   Mean airspeed                          86     79      94     norm     86.60|5.22
ic_vs_avg             initial_climb   Mean vertical rate                     13.21  9.34    17.11  norm     13.22|2.36
cl_d_range            climb           Climb range                            230    164     426    gamma    4.93|140.03|22.96
cl_v_cas_const        climb           Constant CAS                           155    144     166    norm     155.67|6.67
cl_v_mach_const       climb           Constant Mach                          0.77   0.74    0.81   norm     0.77|0.02
cl_h_cas_const        climb           Constant CAS crossover altitude        3.7    2.1     5.4    norm     3.75|0.98
cl_h_mach_const       climb           Constant Mach crossover altitude       8.4    7.5     9.3    norm     8.41|0.56
cl_vs_avg_pre_cas     climb           Mean climb rate, pre-constant-CAS      9.38   7.03    11.73  norm     9.38|1.43
cl_vs_avg_cas_const   climb           Mean climb rate, constant-CAS          8.17   5.91    10.44  norm     8.17|1.38
cl_vs_avg_mach_const  climb           Mean climb rate, constant-Mach         5.19   3.33    7.05   norm     5.19|1.13
cr_d_range            cruise          Cruise range                           610    196     5338   gamma    1.56|162.63|789.69
cr_v_cas_mean         cruise          Mean cruise CAS                        138    127     149    norm     138.28|6.66
cr_v_cas_max          cruise          Maximum cruise CAS                     140    130     162    gamma    5.67|121.09|4.11
cr_v_mach_mean        cruise          Mean cruise Mach                       0.78   0.75    0.8    norm     0.78|0.02
cr_v_mach_max         cruise          Maximum cruise Mach                    0.79   0.77    0.84   gamma    13.42|0.72|0.01
cr_h_init             cruise          Initial cruise altitude                10.34  9.23    11.46  norm     10.35|0.68
cr_h_mean             cruise          Mean cruise altitude                   10.41  9.36    11.46  norm     10.41|0.64
cr_h_max              cruise          Maximum cruise altitude                10.56  9.6     11.52  norm     10.56|0.58
de_d_range            descent         Descent range                          236    174     463    gamma    3.63|159.06|29.37
de_v_mach_const       descent         Constant Mach                          0.77   0.74    0.8    norm     0.77|0.02
de_v_cas_const        descent         Constant CAS                           150    138     163    norm     150.75|7.62
de_h_mach_const       descent         Constant Mach crossover altitude       9      7.8     10.3   norm     9.05|0.76
de_h_cas_const        descent         Constant CAS crossover altitude        6.2    3.3     8.5    beta     2.88|2.40|1.57|8.08
de_vs_avg_mach_const  descent         Mean descent rate, constant-Mach       -5.52  -11.86  -2.17  beta     4.06|2.31|-17.23|16.72
de_vs_avg_cas_const   descent         Mean descent rate, constant-CAS        -9.41  -13.64  -5.15  norm     -9.40|2.58
de_vs_avg_after_cas   descent         Mean descent rate, after-constant-CAS  -6.01  -7.78   -4.24  norm     -6.01|1.08
fa_va_avg             final_approach  Mean airspeed                          75     70      80     norm     75.41|3.61
fa_vs_avg             final_approach  Mean vertical rate                     -3.69  -4.36   -3.01  norm     -3.68|0.41
fa_agl                final_approach  Approach angle                         3.01   2.36    3.66   norm     3.01|0.39
ld_v_app              landing         Touchdown speed                        72.9   66.9    78.9   norm     72.94|4.17
ld_d_brk              landing         Braking distance                       1.55   0.64    3.94   beta     1.50|2.41|0.34|4.65
ld_acc_brk            landing         Mean braking acceleration              -1.21  -1.98   -0.45  norm     -1.21|0.47".
(** openap/data/wrap/a332.txt:1-36 *)
Definition wrap_a332 : string := "variable              flight phase    name                                   opt    min     max    model    parameters
to_v_lof              takeoff         Liftoff speed                          89.9   77.9    101.9  norm     89.89|8.34
to_d_tof              takeoff         Takeoff distance                       1.97   1.16    2.79   norm     1.98|0.49
to_acc_tof            takeoff         Mean takeoff accelaration              1.75   1.32    2.18   norm     1.75|0.26
ic_va_avg             initial_climb   Mean airspeed                          86     78      94     norm     86.44|5.43
ic_vs_avg             initial_climb   Mean vertical rate                     12.48  8.41    16.57  norm     12.49|2.48
cl_d_range            climb           Climb range                            297    152     442    norm     297.55|56.26
cl_v_cas_const        climb           Constant CAS                           152    143     162    norm     152.98|6.05
cl_v_mach_const       climb           Constant Mach                          0.81   0.76    0.84   beta     11.67|3.95|0.63|0.22
cl_h_cas_const        climb           Constant CAS crossover altitude        3.6    2.3     6      gamma    8.62|0.62|0.39
cl_h_mach_const       climb           Constant Mach crossover altitude       9.2    8.3     10.2   norm     9.25|0.60
cl_vs_avg_pre_cas     climb           Mean climb rate, pre-constant-CAS      9.53   7.04    12.02  norm     9.53|1.51
cl_vs_avg_cas_const   climb           Mean climb rate, constant-CAS          7.98   5.51    10.47  norm     7.99|1.51
cl_vs_avg_mach_const  climb           Mean climb rate, constant-Mach         5.23   3.03    7.45   norm     5.24|1.34
cr_d_range            cruise          Cruise range                           1023   229     11012  beta     1.11|2.41|187.36|12081.93
cr_v_cas_mean         cruise          Mean cruise CAS                        129    123     143    gamma    6.40|116.17|2.49
cr_v_cas_max          cruise          Maximum cruise CAS                     135    126     160    gamma    3.86|120.04|5.41
cr_v_mach_mean        cruise          Mean cruise Mach                       0.81   0.79    0.84   norm     0.81|0.02
cr_v_mach_max         cruise          Maximum cruise Mach                    0.84   0.81    0.87   norm     0.84|0.02
cr_h_init             cruise          Initial cruise altitude                11.33  9.99    12.68  norm     11.34|0.82
cr_h_mean             cruise          Mean cruise altitude                   11.67  10.71   12.63  norm     11.67|0.58
cr_h_max              cruise          Maximum cruise altitude                11.95  11.12   12.79  norm     11.96|0.51
de_d_range            descent         Descent range                          283    207     505    gamma    4.98|180.10|25.87
de_v_mach_const       descent         Constant Mach                          0.81   0.76    0.84   beta     10.12|3.59|0.65|0.20
de_v_cas_const        descent         Constant CAS                           152    136     162    beta     4.92|2.86|119.57|49.23
de_h_mach_const       descent         Constant Mach crossover altitude       10.2   8.4     11.4   beta     4.18|2.78|6.90|5.17
de_h_cas_const        descent         Constant CAS crossover altitude        6.3    3.6     9      norm     6.29|1.63
de_vs_avg_mach_const  descent         Mean descent rate, constant-Mach       -6.28  -12.53  -2.85  beta     4.74|2.60|-18.78|17.84
de_vs_avg_cas_const   descent         Mean descent rate, constant-CAS        -9.39  -13.44  -5.31  norm     -9.38|2.47
de_vs_avg_after_cas   descent         Mean descent rate, after-constant-CAS  -5.82  -7.56   -4.07  norm     -5.82|1.06
fa_va_avg             final_approach  Mean airspeed                          72     67      78     norm     72.83|3.65
fa_vs_avg             final_approach  Mean vertical rate                     -3.62  -4.24   -2.99  norm     -3.62|0.38
fa_agl                final_approach  Approach angle                         2.98   2.44    3.53   norm     2.99|0.33
ld_v_app              landing         Touchdown speed                        70.7   65.5    75.9   norm     70.67|3.61
ld_d_brk              landing         Braking distance                       1.54   0.87    3.67   gamma    3.53|0.35|0.47
ld_acc_brk            landing         Mean braking acceleration              -1.18  -1.85   -0.5   norm     -1.18|0.41".
(** openap/data/wrap/a333.txt:1-36 *)
Definition wrap_a333 : string := "variable              flight phase    name                                   opt    min     max    model    parameters
to_v_lof              takeoff         Liftoff speed                          89.9   77.8    102.1  norm     89.97|8.44
to_d_tof              takeoff         Takeoff distance                       1.86   1.27    3.01   gamma    8.89|0.45|0.18
to_acc_tof            takeoff         Mean takeoff accelaration              1.72   1.32    2.13   norm     1.73|0.25
ic_va_avg             initial_climb   Mean airspeed                          87     79      94     norm     87.04|4.98
ic_vs_avg             initial_climb   Mean vertical rate                     12.28  8.47    16.11  norm     12.29|2.32
cl_d_range            climb           Climb range                            287    174     456    beta     2.84|4.07|153.70|358.08
cl_v_cas_const        climb           Constant CAS                           153    142     165    norm     153.59|7.03
cl_v_mach_const       climb           Constant Mach                          0.8    0.75    0.84   norm     0.80|0.03
cl_h_cas_const        climb           Constant CAS crossover altitude        3.1    1.9     6.2    gamma    4.75|0.84|0.61
cl_h_mach_const       climb           Constant Mach crossover altitude       9.1    8       10.2   norm     9.08|0.66
cl_vs_avg_pre_cas     climb           Mean climb rate, pre-constant-CAS      8.82   6.46    11.19  norm     8.82|1.44
cl_vs_avg_cas_const   climb           Mean climb rate, constant-CAS          7.65   5.24    10.08  norm     7.66|1.47
cl_vs_avg_mach_const  climb           Mean climb rate, constant-Mach         4.56   3.14    7.9    gamma    5.77|1.63|0.61
cr_d_range            cruise          Cruise range                           789    604     8911   beta     1.02|1.72|576.76|8731.39
cr_v_cas_mean         cruise          Mean cruise CAS                        131    124     144    gamma    6.44|117.90|2.41
cr_v_cas_max          cruise          Maximum cruise CAS                     137    128     161    beta     2.59|7.64|123.03|77.33
cr_v_mach_mean        cruise          Mean cruise Mach                       0.81   0.79    0.83   norm     0.81|0.01
cr_v_mach_max         cruise          Maximum cruise Mach                    0.83   0.81    0.87   gamma    17.42|0.76|0.00
cr_h_init             cruise          Initial cruise altitude                11.1   9.74    12.46  norm     11.10|0.83
cr_h_mean             cruise          Mean cruise altitude                   11.49  10.54   12.45  norm     11.50|0.58
cr_h_max              cruise          Maximum cruise altitude                12.53  10.63   12.48  beta     4.06|0.99|8.87|3.66
de_d_range            descent         Descent range                          284    214     508    gamma    4.31|193.23|27.46
de_v_mach_const       descent         Constant Mach                          0.81   0.77    0.84   norm     0.81|0.02
de_v_cas_const        descent         Constant CAS                           150    137     162    norm     150.13|7.55
de_h_mach_const       descent         Constant Mach crossover altitude       10.2   8.5     11.3   beta     4.10|2.55|6.93|4.96
de_h_cas_const        descent         Constant CAS crossover altitude        6.3    3.4     9.1    norm     6.28|1.73
de_vs_avg_mach_const  descent         Mean descent rate, constant-Mach       -6.17  -12.5   -2.68  beta     4.37|2.47|-18.33|17.48
de_vs_avg_cas_const   descent         Mean descent rate, constant-CAS        -9.03  -13.07  -4.96  norm     -9.02|2.46
de_vs_avg_after_cas   descent         Mean descent rate, after-constant-CAS  -5.74  -7.41   -4.06  norm     -5.74|1.02
fa_va_avg             final_approach  Mean airspeed                          73     69      78     norm     73.84|3.33
fa_vs_avg             final_approach  Mean vertical rate                     -3.74  -4.22   -2.97  gamma    16.90|-5.22|0.09
fa_agl                final_approach  Approach angle                         2.97   2.44    3.49   norm     2.97|0.32
ld_v_app              landing         Touchdown speed                        71.5   65.5    77.6   norm     71.55|4.18
ld_d_brk              landing         Braking distance                       1.48   0.81    3.79   gamma    3.19|0.33|0.53
ld_acc_brk            landing         Mean braking acceleration              -1.2   -1.86   -0.53  norm     -1.20|0.40".
(** openap/data/wrap/a343.txt:1-36 *)
Definition wrap_a343 : string := "variable              flight phase    name                                   opt    min     max    model    parameters
to_v_lof              takeoff         Liftoff speed                          87     76      98.2   norm     87.08|7.70
to_d_tof              takeoff         Takeoff distance                       2.16   1.46    3.82   gamma    5.71|0.71|0.31
to_acc_tof            takeoff         Mean takeoff accelaration              1.4    1.01    1.8    norm     1.40|0.24
ic_va_avg             initial_climb   Mean airspeed                          84     76      93     beta     3.76|4.87|69.49|35.32
ic_vs_avg             initial_climb   Mean vertical rate                     6.44   4.82    11.01  gamma    4.18|3.43|0.95
cl_d_range            climb           Climb range                            293    154     431    norm     293.32|53.81
cl_v_cas_const        climb           Constant CAS                           155    144     169    beta     6.81|9.57|129.33|64.98
cl_v_mach_const       climb           Constant Mach                          0.78   0.75    0.81   norm     0.78|0.02
cl_h_cas_const        climb           Constant CAS crossover altitude        3.6    1.7     5.5    norm     3.61|1.16
cl_h_mach_const       climb           Constant Mach crossover altitude       8.5    7.3     9.8    beta     5.08|5.89|6.16|5.14
cl_vs_avg_pre_cas     climb           Mean climb rate, pre-constant-CAS      6.54   5.09    10.41  gamma    4.51|3.79|0.78
cl_vs_avg_cas_const   climb           Mean climb rate, constant-CAS          6.59   4.87    10.05  gamma    8.32|2.54|0.55
cl_vs_avg_mach_const  climb           Mean climb rate, constant-Mach         4.08   2.65    7.17   gamma    6.86|0.95|0.53
cr_d_range            cruise          Cruise range                           6021   -1865   13929  norm     6032.29|3066.01
cr_v_cas_mean         cruise          Mean cruise CAS                        138    128     148    norm     138.63|6.17
cr_v_cas_max          cruise          Maximum cruise CAS                     149    132     165    norm     149.24|9.97
cr_v_mach_mean        cruise          Mean cruise Mach                       0.81   0.79    0.83   norm     0.81|0.01
cr_v_mach_max         cruise          Maximum cruise Mach                    0.83   0.81    0.88   gamma    11.93|0.77|0.01
cr_h_init             cruise          Initial cruise altitude                10.01  8.92    12.09  gamma    9.56|7.32|0.32
cr_h_mean             cruise          Mean cruise altitude                   10.86  10.12   12.1   gamma    15.04|8.66|0.16
cr_h_max              cruise          Maximum cruise altitude                11.7   10.61   12.35  beta     6.39|3.32|9.14|3.66
de_d_range            descent         Descent range                          281    203     489    gamma    5.92|169.03|22.84
de_v_mach_const       descent         Constant Mach                          0.81   0.76    0.84   beta     7.14|4.09|0.69|0.17
de_v_cas_const        descent         Constant CAS                           154    138     165    beta     3.94|2.85|125.92|46.48
de_h_mach_const       descent         Constant Mach crossover altitude       9.9    8.3     11.1   beta     3.65|2.90|7.05|4.83
de_h_cas_const        descent         Constant CAS crossover altitude        5.8    3       8.8    beta     2.75|2.94|1.39|9.27
de_vs_avg_mach_const  descent         Mean descent rate, constant-Mach       -5.84  -12.15  -2.68  beta     4.78|2.43|-18.58|17.56
de_vs_avg_cas_const   descent         Mean descent rate, constant-CAS        -9.27  -13.56  -4.97  norm     -9.26|2.61
de_vs_avg_after_cas   descent         Mean descent rate, after-constant-CAS  -5.5   -7.22   -3.78  norm     -5.50|1.04
fa_va_avg             final_approach  Mean airspeed                          74     69      79     norm     74.30|3.48
fa_vs_avg             final_approach  Mean vertical rate                     -3.64  -4.31   -2.97  norm     -3.64|0.41
fa_agl                final_approach  Approach angle                         3.04   2.47    3.61   norm     3.04|0.35
ld_v_app              landing         Touchdown speed                        72.2   67.5    77     norm     72.26|3.30
ld_d_brk              landing         Braking distance                       1.65   0.92    3.99   gamma    3.45|0.37|0.52
ld_acc_brk            landing         Mean braking acceleration              -1.01  -1.83   -0.49  beta     4.33|2.73|-2.58|2.38".
(** openap/data/wrap/a388.txt:1-36 *)
Definition wrap_a388 : string := "variable              flight phase    name                                   opt    min     max    model    parameters
to_v_lof              takeoff         Liftoff speed                          89.9   75.4    104.4  norm     89.93|10.07
to_d_tof              takeoff         Takeoff distance                       2.56   1.35    3.78   norm     2.56|0.74
to_acc_tof            takeoff         Mean takeoff accelaration              1.35   1.04    1.66   norm     1.35|0.19
ic_va_avg             initial_climb   Mean airspeed                          88     80      96     norm     88.15|5.64
ic_vs_avg             initial_climb   Mean vertical rate                     5.65   4.4     8.94   gamma    4.76|3.22|0.65
cl_d_range            climb           Climb range                            296    200     446    beta     3.23|5.18|179.46|335.24
cl_v_cas_const        climb           Constant CAS                           163    155     170    norm     163.39|4.51
cl_v_mach_const       climb           Constant Mach                          0.84   0.8     0.86   beta     12.23|5.32|0.72|0.17
cl_h_cas_const        climb           Constant CAS crossover altitude        3.3    1.3     5.3    norm     3.29|1.24
cl_h_mach_const       climb           Constant Mach crossover altitude       8.9    8.2     9.7    norm     8.94|0.47
cl_vs_avg_pre_cas     climb           Mean climb rate, pre-constant-CAS      7.85   5.95    9.75   norm     7.85|1.16
cl_vs_avg_cas_const   climb           Mean climb rate, constant-CAS          7.51   5.2     9.82   norm     7.51|1.40
cl_vs_avg_mach_const  climb           Mean climb rate, constant-Mach         5.56   3.23    7.91   norm     5.57|1.42
cr_d_range            cruise          Cruise range                           4348   892     20565  gamma    2.81|246.73|2274.81
cr_v_cas_mean         cruise          Mean cruise CAS                        136    130     145    beta     3.32|5.27|126.00|29.75
cr_v_cas_max          cruise          Maximum cruise CAS                     145    134     164    beta     2.02|3.21|130.38|46.65
cr_v_mach_mean        cruise          Mean cruise Mach                       0.84   0.82    0.86   norm     0.84|0.01
cr_v_mach_max         cruise          Maximum cruise Mach                    0.87   0.85    0.9    gamma    16.14|0.80|0.00
cr_h_init             cruise          Initial cruise altitude                11.55  9.3     12.23  beta     3.82|1.66|7.49|5.01
cr_h_mean             cruise          Mean cruise altitude                   11.73  10.87   12.28  beta     7.22|3.92|9.59|3.14
cr_h_max              cruise          Maximum cruise altitude                12.06  11.52   12.6   norm     12.06|0.33
de_d_range            descent         Descent range                          310    238     528    gamma    4.73|213.47|25.87
de_v_mach_const       descent         Constant Mach                          0.83   0.8     0.87   norm     0.83|0.02
de_v_cas_const        descent         Constant CAS                           154    142     167    norm     154.84|7.74
de_h_mach_const       descent         Constant Mach crossover altitude       10.1   8.6     11.5   norm     10.06|0.88
de_h_cas_const        descent         Constant CAS crossover altitude        6.6    3.9     9.4    norm     6.64|1.69
de_vs_avg_mach_const  descent         Mean descent rate, constant-Mach       -6.06  -11.9   -2.97  beta     3.43|2.08|-15.98|14.36
de_vs_avg_cas_const   descent         Mean descent rate, constant-CAS        -8.36  -11.74  -4.97  norm     -8.36|2.06
de_vs_avg_after_cas   descent         Mean descent rate, after-constant-CAS  -5.48  -6.93   -4.02  norm     -5.48|0.88
fa_va_avg             final_approach  Mean airspeed                          73     68      77     norm     73.28|3.02
fa_vs_avg             final_approach  Mean vertical rate                     -3.71  -4.13   -2.92  gamma    9.49|-4.74|0.12
fa_agl                final_approach  Approach angle                         2.9    2.42    3.38   norm     2.90|0.29
ld_v_app              landing         Touchdown speed                        70     62.1    78     norm     70.00|5.52
ld_d_brk              landing         Braking distance                       2.26   0.73    3.8    norm     2.26|0.93
ld_acc_brk            landing         Mean braking acceleration              -1.01  -1.51   -0.52  norm     -1.01|0.30".
(** openap/data/wrap/b737.txt:1-36 *)
Definition wrap_b737 : string := "variable              flight phase    name                                   opt    min     max    model    parameters
to_v_lof              takeoff         Liftoff speed                          83.6   72.3    94.8   norm     83.58|7.82
to_d_tof              takeoff         Takeoff distance                       1.5    1.03    2.58   gamma    5.97|0.52|0.20
to_acc_tof            takeoff         Mean takeoff accelaration              1.77   1.31    2.23   norm     1.77|0.28
ic_va_avg             initial_climb   Mean airspeed                          81     71      91     norm     81.31|6.79
ic_vs_avg             initial_climb   Mean vertical rate                     11.93  8.05    15.83  norm     11.94|2.37
cl_d_range            climb           Climb range                            204    155     348    gamma    5.17|136.24|16.48
cl_v_cas_const        climb           Constant CAS                           151    139     164    norm     151.95|7.82
cl_v_mach_const       climb           Constant Mach                          0.78   0.72    0.81   beta     33.60|3.10|0.26|0.56
cl_h_cas_const        climb           Constant CAS crossover altitude        3.4    2.2     6.1    gamma    6.82|0.72|0.46
cl_h_mach_const       climb           Constant Mach crossover altitude       8.9    7.9     9.8    norm     8.85|0.59
cl_vs_avg_pre_cas     climb           Mean climb rate, pre-constant-CAS      11.4   8.01    14.82  norm     11.41|2.07
cl_vs_avg_cas_const   climb           Mean climb rate, constant-CAS          11.71  8.49    14.93  norm     11.71|1.96
cl_vs_avg_mach_const  climb           Mean climb rate, constant-Mach         6.74   4.4     9.08   norm     6.74|1.42
cr_d_range            cruise          Cruise range                           453    175     4929   gamma    1.38|156.17|773.74
cr_v_cas_mean         cruise          Mean cruise CAS                        122    115     136    gamma    11.06|103.01|1.94
cr_v_cas_max          cruise          Maximum cruise CAS                     126    118     150    gamma    3.76|111.86|5.16
cr_v_mach_mean        cruise          Mean cruise Mach                       0.78   0.74    0.8    beta     14.90|4.49|0.63|0.19
cr_v_mach_max         cruise          Maximum cruise Mach                    0.8    0.76    0.83   norm     0.80|0.02
cr_h_init             cruise          Initial cruise altitude                12.52  10.36   12.47  beta     5.29|0.98|7.50|5.02
cr_h_mean             cruise          Mean cruise altitude                   11.74  10.73   12.75  norm     11.74|0.61
cr_h_max              cruise          Maximum cruise altitude                11.9   11.03   12.78  norm     11.90|0.53
de_d_range            descent         Descent range                          244    173     566    gamma    2.89|159.35|44.87
de_v_mach_const       descent         Constant Mach                          0.78   0.7     0.81   beta     22.01|2.63|0.28|0.54
de_v_cas_const        descent         Constant CAS                           146    133     159    norm     146.60|7.70
de_h_mach_const       descent         Constant Mach crossover altitude       9.6    8.1     11.2   norm     9.63|0.95
de_h_cas_const        descent         Constant CAS crossover altitude        5.7    3       8.5    norm     5.73|1.69
de_vs_avg_mach_const  descent         Mean descent rate, constant-Mach       -5.63  -13.13  -2.29  beta     2.76|1.69|-17.10|16.02
de_vs_avg_cas_const   descent         Mean descent rate, constant-CAS        -9.39  -14.21  -4.55  norm     -9.38|2.94
de_vs_avg_after_cas   descent         Mean descent rate, after-constant-CAS  -5.85  -7.84   -3.86  norm     -5.85|1.21
fa_va_avg             final_approach  Mean airspeed                          70     65      80     gamma    7.33|58.48|1.90
fa_vs_avg             final_approach  Mean vertical rate                     -3.58  -4.45   -2.7   norm     -3.58|0.53
fa_agl                final_approach  Approach angle                         3.08   2.28    3.87   norm     3.08|0.48
ld_v_app              landing         Touchdown speed                        68.8   62.9    74.6   norm     68.78|4.05
ld_d_brk              landing         Braking distance                       1.91   0.66    4.39   beta     1.32|1.63|0.35|4.63
ld_acc_brk            landing         Mean braking acceleration              -0.83  -1.9    -0.31  beta     5.10|2.45|-3.08|3.04".
(** openap/data/wrap/b738.txt:1-36 *)
Definition wrap_b738 : string := "variable              flight phase    name                                   opt    min     max    model    parameters
to_v_lof              takeoff         Liftoff speed                          86.5   75      98     norm     86.54|7.99
to_d_tof              takeoff         Takeoff distance                       1.64   1.13    2.63   gamma    9.42|0.37|0.15
to_acc_tof            takeoff         Mean takeoff accelaration              1.82   1.37    2.28   norm     1.82|0.28
ic_va_avg             initial_climb   Mean airspeed                          87     80      93     norm     87.24|4.53
ic_vs_avg             initial_climb   Mean vertical rate                     12.27  8.29    16.26  norm     12.28|2.42
cl_d_range            climb           Climb range                            216    168     350    gamma    5.40|149.68|15.22
cl_v_cas_const        climb           Constant CAS                           151    140     161    norm     151.22|6.33
cl_v_mach_const       climb           Constant Mach                          0.77   0.75    0.8    norm     0.77|0.02
cl_h_cas_const        climb           Constant CAS crossover altitude        3.6    1.8     5.4    norm     3.64|1.09
cl_h_mach_const       climb           Constant Mach crossover altitude       8.9    7.9     9.8    norm     8.88|0.57
cl_vs_avg_pre_cas     climb           Mean climb rate, pre-constant-CAS      10.61  7.83    13.41  norm     10.62|1.70
cl_vs_avg_cas_const   climb           Mean climb rate, constant-CAS          10.24  7.7     12.8   norm     10.25|1.55
cl_vs_avg_mach_const  climb           Mean climb rate, constant-Mach         6.2    4.31    8.11   norm     6.21|1.15
cr_d_range            cruise          Cruise range                           929    502     4953   gamma    1.71|463.22|654.96
cr_v_cas_mean         cruise          Mean cruise CAS                        130    121     139    norm     130.27|5.50
cr_v_cas_max          cruise          Maximum cruise CAS                     132    125     151    gamma    5.83|116.60|3.39
cr_v_mach_mean        cruise          Mean cruise Mach                       0.78   0.75    0.8    norm     0.78|0.02
cr_v_mach_max         cruise          Maximum cruise Mach                    0.8    0.77    0.83   norm     0.80|0.02
cr_h_init             cruise          Initial cruise altitude                11.13  10.16   12.1   norm     11.13|0.59
cr_h_mean             cruise          Mean cruise altitude                   11.23  10.35   12.12  norm     11.24|0.54
cr_h_max              cruise          Maximum cruise altitude                11.38  10.57   12.19  norm     11.38|0.49
de_d_range            descent         Descent range                          241    179     472    gamma    3.59|163.64|30.00
de_v_mach_const       descent         Constant Mach                          0.77   0.73    0.81   norm     0.77|0.03
de_v_cas_const        descent         Constant CAS                           145    132     159    norm     145.77|8.27
de_h_mach_const       descent         Constant Mach crossover altitude       9.7    8.3     11.1   norm     9.68|0.86
de_h_cas_const        descent         Constant CAS crossover altitude        5.9    3.2     8.7    norm     5.95|1.65
de_vs_avg_mach_const  descent         Mean descent rate, constant-Mach       -5.8   -12.73  -2.11  beta     3.43|2.10|-17.58|17.11
de_vs_avg_cas_const   descent         Mean descent rate, constant-CAS        -9.95  -14.39  -5.48  norm     -9.94|2.71
de_vs_avg_after_cas   descent         Mean descent rate, after-constant-CAS  -6.23  -7.91   -4.53  norm     -6.22|1.03
fa_va_avg             final_approach  Mean airspeed                          77     72      82     norm     77.35|3.71
fa_vs_avg             final_approach  Mean vertical rate                     -3.84  -4.56   -3.12  norm     -3.84|0.44
fa_agl                final_approach  Approach angle                         3.02   2.33    3.72   norm     3.03|0.42
ld_v_app              landing         Touchdown speed                        75.4   69.5    81.3   norm     75.37|4.11
ld_d_brk              landing         Braking distance                       1.25   0.68    3.6    gamma    2.60|0.33|0.57
ld_acc_brk            landing         Mean braking acceleration              -1.36  -2.14   -0.57  norm     -1.36|0.48".
(** openap/data/wrap/b739.txt:1-36 *)
Definition wrap_b739 : string := "variable              flight phase    name                                   opt    min     max    model    parameters
to_v_lof              takeoff         Liftoff speed                          91.3   77.6    105    norm     91.32|9.53
to_d_tof              takeoff         Takeoff distance                       1.91   1.14    2.9    beta     4.56|6.31|0.42|3.74
to_acc_tof            takeoff         Mean takeoff accelaration              1.87   1.41    2.32   norm     1.87|0.28
ic_va_avg             initial_climb   Mean airspeed                          91     84      99     norm     91.92|5.26
ic_vs_avg             initial_climb   Mean vertical rate                     12.36  7.85    16.9   norm     12.37|2.75
cl_d_range            climb           Climb range                            239    142     337    norm     239.93|37.90
cl_v_cas_const        climb           Constant CAS                           154    143     166    norm     154.87|6.96
cl_v_mach_const       climb           Constant Mach                          0.78   0.75    0.81   beta     10.40|4.40|0.66|0.16
cl_h_cas_const        climb           Constant CAS crossover altitude        3.4    2.3     5.9    gamma    6.04|1.09|0.46
cl_h_mach_const       climb           Constant Mach crossover altitude       8.6    7.7     9.5    norm     8.60|0.56
cl_vs_avg_pre_cas     climb           Mean climb rate, pre-constant-CAS      10.18  7.64    12.72  norm     10.18|1.55
cl_vs_avg_cas_const   climb           Mean climb rate, constant-CAS          8.88   6.66    11.12  norm     8.89|1.36
cl_vs_avg_mach_const  climb           Mean climb rate, constant-Mach         5.55   3.67    7.43   norm     5.55|1.14
cr_d_range            cruise          Cruise range                           338    193     4458   beta     1.05|2.54|180.63|4861.59
cr_v_cas_mean         cruise          Mean cruise CAS                        138    127     149    norm     138.40|6.60
cr_v_cas_max          cruise          Maximum cruise CAS                     145    131     159    norm     145.21|8.55
cr_v_mach_mean        cruise          Mean cruise Mach                       0.78   0.76    0.81   norm     0.78|0.02
cr_v_mach_max         cruise          Maximum cruise Mach                    0.81   0.78    0.84   norm     0.81|0.02
cr_h_init             cruise          Initial cruise altitude                10.43  9.43    11.43  norm     10.43|0.61
cr_h_mean             cruise          Mean cruise altitude                   10.52  9.63    11.41  norm     10.52|0.54
cr_h_max              cruise          Maximum cruise altitude                10.74  9.73    11.61  beta     6.51|5.15|8.41|4.08
de_d_range            descent         Descent range                          245    180     505    gamma    3.29|165.75|34.68
de_v_mach_const       descent         Constant Mach                          0.78   0.73    0.8    beta     5.13|2.83|0.68|0.14
de_v_cas_const        descent         Constant CAS                           148    138     159    norm     148.73|6.45
de_h_mach_const       descent         Constant Mach crossover altitude       9.4    8.2     10.6   norm     9.36|0.73
de_h_cas_const        descent         Constant CAS crossover altitude        6.5    4.2     8.8    norm     6.46|1.39
de_vs_avg_mach_const  descent         Mean descent rate, constant-Mach       -4.78  -11.29  -1.79  beta     3.42|1.92|-15.82|15.27
de_vs_avg_cas_const   descent         Mean descent rate, constant-CAS        -8.96  -13.87  -4.17  beta     4.39|4.26|-18.26|18.26
de_vs_avg_after_cas   descent         Mean descent rate, after-constant-CAS  -6.02  -7.69   -4.35  norm     -6.02|1.02
fa_va_avg             final_approach  Mean airspeed                          78     72      83     norm     78.30|3.70
fa_vs_avg             final_approach  Mean vertical rate                     -3.92  -4.72   -3.13  norm     -3.92|0.48
fa_agl                final_approach  Approach angle                         3.03   2.43    3.64   norm     3.03|0.37
ld_v_app              landing         Touchdown speed                        76.8   70.5    83.2   norm     76.86|4.40
ld_d_brk              landing         Braking distance                       1.45   0.7     4.22   gamma    2.95|0.19|0.65
ld_acc_brk            landing         Mean braking acceleration              -1.33  -2.12   -0.54  norm     -1.33|0.48".
(** openap/data/wrap/b744.txt:1-36 *)
Definition wrap_b744 : string := "variable              flight phase    name                                   opt    min     max    model    parameters
to_v_lof              takeoff         Liftoff speed                          92.4   79.3    105.4  norm     92.39|9.06
to_d_tof              takeoff         Takeoff distance                       2.29   1.27    3.31   norm     2.29|0.62
to_acc_tof            takeoff         Mean takeoff accelaration              1.67   1.21    2.13   norm     1.67|0.28
ic_va_avg             initial_climb   Mean airspeed                          91     82      101    beta     4.95|5.64|70.82|44.93
ic_vs_avg             initial_climb   Mean vertical rate                     9.24   6.76    13.74  gamma    11.16|2.72|0.64
cl_d_range            climb           Climb range                            223    175     374    gamma    4.44|160.55|18.26
cl_v_cas_const        climb           Constant CAS                           168    157     180    norm     168.81|7.06
cl_v_mach_const       climb           Constant Mach                          0.84   0.81    0.87   norm     0.84|0.02
cl_h_cas_const        climb           Constant CAS crossover altitude        3.9    2.2     5.6    norm     3.89|1.05
cl_h_mach_const       climb           Constant Mach crossover altitude       8.3    7.6     9.7    gamma    10.78|6.39|0.20
cl_vs_avg_pre_cas     climb           Mean climb rate, pre-constant-CAS      8.66   6       11.33  norm     8.67|1.62
cl_vs_avg_cas_const   climb           Mean climb rate, constant-CAS          8.77   6.65    13.11  gamma    7.91|3.87|0.71
cl_vs_avg_mach_const  climb           Mean climb rate, constant-Mach         6.72   4.07    9.39   norm     6.73|1.61
cr_d_range            cruise          Cruise range                           5580   -1544   12725  norm     5590.66|2769.86
cr_v_cas_mean         cruise          Mean cruise CAS                        146    134     158    norm     146.64|7.16
cr_v_cas_max          cruise          Maximum cruise CAS                     157    139     174    norm     157.08|10.62
cr_v_mach_mean        cruise          Mean cruise Mach                       0.84   0.82    0.87   norm     0.84|0.01
cr_v_mach_max         cruise          Maximum cruise Mach                    0.87   0.84    0.92   gamma    16.48|0.77|0.01
cr_h_init             cruise          Initial cruise altitude                10.28  8.87    11.7   norm     10.28|0.86
cr_h_mean             cruise          Mean cruise altitude                   10.81  9.77    11.84  norm     10.81|0.63
cr_h_max              cruise          Maximum cruise altitude                11.29  10.17   12.4   beta     6.02|5.99|8.84|4.88
de_d_range            descent         Descent range                          262    195     510    gamma    3.60|178.39|32.24
de_v_mach_const       descent         Constant Mach                          0.83   0.77    0.87   beta     5.70|2.75|0.68|0.21
de_v_cas_const        descent         Constant CAS                           152    139     164    norm     152.44|7.62
de_h_mach_const       descent         Constant Mach crossover altitude       10     8.7     11.3   norm     10.00|0.79
de_h_cas_const        descent         Constant CAS crossover altitude        6.6    4       9.2    norm     6.61|1.57
de_vs_avg_mach_const  descent         Mean descent rate, constant-Mach       -5.43  -12.37  -2.2   beta     3.86|2.07|-17.94|17.19
de_vs_avg_cas_const   descent         Mean descent rate, constant-CAS        -9.17  -13.85  -4.48  norm     -9.16|2.85
de_vs_avg_after_cas   descent         Mean descent rate, after-constant-CAS  -6.29  -8.02   -4.55  norm     -6.29|1.05
fa_va_avg             final_approach  Mean airspeed                          79     72      85     norm     79.03|4.54
fa_vs_avg             final_approach  Mean vertical rate                     -4.03  -4.6    -3.03  gamma    13.46|-5.66|0.13
fa_agl                final_approach  Approach angle                         2.98   2.33    3.64   norm     2.98|0.40
ld_v_app              landing         Touchdown speed                        77.9   71      84.9   norm     77.96|4.85
ld_d_brk              landing         Braking distance                       1.64   0.93    4.06   gamma    3.26|0.41|0.55
ld_acc_brk            landing         Mean braking acceleration              -1.18  -1.98   -0.6   beta     5.71|3.74|-2.92|2.76".
(** openap/data/wrap/b752.txt:1-36 *)
Definition wrap_b752 : string := "variable              flight phase    name                                   opt    min     max    model    parameters
to_v_lof              takeoff         Liftoff speed                          90.5   76.8    104.3  norm     90.55|9.57
to_d_tof              takeoff         Takeoff distance                       1.7    0.98    2.66   beta     3.89|5.55|0.41|3.34
to_acc_tof            takeoff         Mean takeoff accelaration              1.91   1.46    2.37   norm     1.91|0.28
ic_va_avg             initial_climb   Mean airspeed                          88     78      98     norm     88.51|7.17
ic_vs_avg             initial_climb   Mean vertical rate                     12.99  8.6     17.4   norm     13.00|2.68
cl_d_range            climb           Climb range                            220    167     384    gamma    4.69|149.01|19.46
cl_v_cas_const        climb           Constant CAS                           155    144     166    norm     155.59|6.70
cl_v_mach_const       climb           Constant Mach                          0.79   0.75    0.82   norm     0.79|0.02
cl_h_cas_const        climb           Constant CAS crossover altitude        4      2.3     5.7    norm     4.00|1.02
cl_h_mach_const       climb           Constant Mach crossover altitude       8.7    8       9.5    norm     8.75|0.48
cl_vs_avg_pre_cas     climb           Mean climb rate, pre-constant-CAS      10.29  7.8     12.8   norm     10.30|1.52
cl_vs_avg_cas_const   climb           Mean climb rate, constant-CAS          8.95   6.41    11.51  norm     8.96|1.55
cl_vs_avg_mach_const  climb           Mean climb rate, constant-Mach         6.23   3.8     8.67   norm     6.24|1.48
cr_d_range            cruise          Cruise range                           497    512     6087   beta     0.99|1.86|497.24|5936.62
cr_v_cas_mean         cruise          Mean cruise CAS                        131    123     145    gamma    11.69|110.95|1.94
cr_v_cas_max          cruise          Maximum cruise CAS                     138    128     159    gamma    6.92|116.87|3.65
cr_v_mach_mean        cruise          Mean cruise Mach                       0.79   0.77    0.82   norm     0.79|0.02
cr_v_mach_max         cruise          Maximum cruise Mach                    0.81   0.79    0.86   gamma    9.66|0.75|0.01
cr_h_init             cruise          Initial cruise altitude                11     9.96    12.05  norm     11.00|0.63
cr_h_mean             cruise          Mean cruise altitude                   11.17  10.28   12.07  norm     11.17|0.54
cr_h_max              cruise          Maximum cruise altitude                11.64  10.39   12.22  beta     5.67|2.52|8.87|3.67
de_d_range            descent         Descent range                          247    178     504    gamma    3.53|162.02|33.57
de_v_mach_const       descent         Constant Mach                          0.79   0.75    0.82   norm     0.79|0.02
de_v_cas_const        descent         Constant CAS                           151    137     165    norm     151.53|8.29
de_h_mach_const       descent         Constant Mach crossover altitude       9.4    8       10.8   norm     9.40|0.84
de_h_cas_const        descent         Constant CAS crossover altitude        6.3    3.9     8.8    norm     6.35|1.50
de_vs_avg_mach_const  descent         Mean descent rate, constant-Mach       -6.8   -12.65  -2.52  beta     2.78|2.22|-15.86|15.25
de_vs_avg_cas_const   descent         Mean descent rate, constant-CAS        -9.56  -14.46  -4.64  norm     -9.55|2.99
de_vs_avg_after_cas   descent         Mean descent rate, after-constant-CAS  -6.16  -7.9    -4.41  norm     -6.15|1.06
fa_va_avg             final_approach  Mean airspeed                          69     62      76     norm     69.77|4.86
fa_vs_avg             final_approach  Mean vertical rate                     -3.41  -4.2    -2.62  norm     -3.41|0.48
fa_agl                final_approach  Approach angle                         3.09   2.2     3.98   norm     3.09|0.54
ld_v_app              landing         Touchdown speed                        66.7   60.2    73.2   norm     66.71|4.50
ld_d_brk              landing         Braking distance                       1.21   0.68    3.43   gamma    2.56|0.35|0.55
ld_acc_brk            landing         Mean braking acceleration              -1.03  -1.85   -0.46  beta     4.58|3.08|-2.63|2.53".
(** openap/data/wrap/b763.txt:1-36 *)
Definition wrap_b763 : string := "variable              flight phase    name                                   opt    min     max    model    parameters
to_v_lof              takeoff         Liftoff speed                          92.4   79.6    105.3  norm     92.43|8.92
to_d_tof              takeoff         Takeoff distance                       1.82   1.03    2.61   norm     1.82|0.48
to_acc_tof            takeoff         Mean takeoff accelaration              1.97   1.46    2.49   norm     1.97|0.31
ic_va_avg             initial_climb   Mean airspeed                          88     80      96     beta     4.65|5.42|71.86|36.69
ic_vs_avg             initial_climb   Mean vertical rate                     14.28  9.45    19.12  norm     14.29|2.94
cl_d_range            climb           Climb range                            202    160     338    gamma    4.37|146.83|16.52
cl_v_cas_const        climb           Constant CAS                           159    146     171    beta     5.42|4.92|131.86|52.14
cl_v_mach_const       climb           Constant Mach                          0.79   0.76    0.83   norm     0.79|0.02
cl_h_cas_const        climb           Constant CAS crossover altitude        4      2.6     5.5    norm     4.05|0.90
cl_h_mach_const       climb           Constant Mach crossover altitude       8.3    7.6     9.8    gamma    8.58|6.61|0.23
cl_vs_avg_pre_cas     climb           Mean climb rate, pre-constant-CAS      10.16  7.27    13.07  norm     10.17|1.76
cl_vs_avg_cas_const   climb           Mean climb rate, constant-CAS          10.26  7.06    13.48  norm     10.27|1.95
cl_vs_avg_mach_const  climb           Mean climb rate, constant-Mach         6.95   3.76    10.16  norm     6.96|1.95
cr_d_range            cruise          Cruise range                           1201   562     9544   beta     1.06|1.84|526.21|9525.03
cr_v_cas_mean         cruise          Mean cruise CAS                        137    127     148    norm     137.87|6.52
cr_v_cas_max          cruise          Maximum cruise CAS                     142    132     165    gamma    5.96|121.86|4.14
cr_v_mach_mean        cruise          Mean cruise Mach                       0.8    0.77    0.83   norm     0.80|0.02
cr_v_mach_max         cruise          Maximum cruise Mach                    0.82   0.79    0.87   gamma    9.85|0.75|0.01
cr_h_init             cruise          Initial cruise altitude                10.65  9.11    11.75  beta     4.71|3.26|7.61|4.88
cr_h_mean             cruise          Mean cruise altitude                   10.81  9.9     11.73  norm     10.82|0.55
cr_h_max              cruise          Maximum cruise altitude                11.17  10.3    12.04  norm     11.17|0.53
de_d_range            descent         Descent range                          244    178     489    gamma    3.61|161.96|31.72
de_v_mach_const       descent         Constant Mach                          0.79   0.76    0.83   norm     0.79|0.02
de_v_cas_const        descent         Constant CAS                           151    139     164    norm     151.80|7.70
de_h_mach_const       descent         Constant Mach crossover altitude       9.5    8.3     10.8   norm     9.55|0.77
de_h_cas_const        descent         Constant CAS crossover altitude        6.7    4.4     9      norm     6.70|1.42
de_vs_avg_mach_const  descent         Mean descent rate, constant-Mach       -6.29  -13.2   -2.33  beta     2.75|1.91|-16.88|16.10
de_vs_avg_cas_const   descent         Mean descent rate, constant-CAS        -9.98  -14.99  -4.94  norm     -9.97|3.06
de_vs_avg_after_cas   descent         Mean descent rate, after-constant-CAS  -6.29  -7.99   -4.58  norm     -6.29|1.04
fa_va_avg             final_approach  Mean airspeed                          74     68      80     norm     74.38|4.27
fa_vs_avg             final_approach  Mean vertical rate                     -3.76  -4.37   -2.75  gamma    15.83|-5.60|0.12
fa_agl                final_approach  Approach angle                         2.98   2.22    3.74   norm     2.98|0.46
ld_v_app              landing         Touchdown speed                        72.1   65.3    78.9   norm     72.10|4.70
ld_d_brk              landing         Braking distance                       1.51   0.66    3.71   beta     1.65|2.94|0.35|4.63
ld_acc_brk            landing         Mean braking acceleration              -1.1   -1.94   -0.52  beta     4.70|3.14|-2.76|2.62".
(** openap/data/wrap/b77w.txt:1-36 *)
Definition wrap_b77w : string := "variable              flight phase    name                                   opt    min     max    model    parameters
to_v_lof              takeoff         Liftoff speed                          96.4   83.9    109    norm     96.46|8.74
to_d_tof              takeoff         Takeoff distance                       2.21   1.38    3.04   norm     2.21|0.50
to_acc_tof            takeoff         Mean takeoff accelaration              1.89   1.45    2.33   norm     1.89|0.27
ic_va_avg             initial_climb   Mean airspeed                          98     88      106    beta     3.65|3.27|80.15|33.27
ic_vs_avg             initial_climb   Mean vertical rate                     13.02  9.69    16.36  norm     13.03|2.03
cl_d_range            climb           Climb range                            214    173     354    gamma    4.08|161.44|17.33
cl_v_cas_const        climb           Constant CAS                           164    158     170    norm     164.33|3.45
cl_v_mach_const       climb           Constant Mach                          0.83   0.8     0.86   norm     0.83|0.02
cl_h_cas_const        climb           Constant CAS crossover altitude        3.8    1.8     5.9    norm     3.84|1.25
cl_h_mach_const       climb           Constant Mach crossover altitude       8.8    8.1     9.5    norm     8.80|0.42
cl_vs_avg_pre_cas     climb           Mean climb rate, pre-constant-CAS      8.99   6.8     11.19  norm     8.99|1.33
cl_vs_avg_cas_const   climb           Mean climb rate, constant-CAS          8.55   6.41    12.95  gamma    7.87|3.61|0.72
cl_vs_avg_mach_const  climb           Mean climb rate, constant-Mach         5.76   3.31    10.81  gamma    7.72|0.15|0.83
cr_d_range            cruise          Cruise range                           4843   758     14177  beta     1.32|1.74|606.13|14106.67
cr_v_cas_mean         cruise          Mean cruise CAS                        148    139     158    norm     148.69|5.75
cr_v_cas_max          cruise          Maximum cruise CAS                     159    142     175    norm     159.16|10.07
cr_v_mach_mean        cruise          Mean cruise Mach                       0.84   0.82    0.86   norm     0.84|0.01
cr_v_mach_max         cruise          Maximum cruise Mach                    0.86   0.84    0.91   gamma    5.16|0.82|0.01
cr_h_init             cruise          Initial cruise altitude                9.63   8.74    11.52  gamma    7.37|7.62|0.32
cr_h_mean             cruise          Mean cruise altitude                   10.35  9.75    11.4   gamma    12.87|8.67|0.14
cr_h_max              cruise          Maximum cruise altitude                11     10.31   11.69  norm     11.00|0.42
de_d_range            descent         Descent range                          257    197     476    gamma    3.62|182.39|28.42
de_v_mach_const       descent         Constant Mach                          0.82   0.79    0.86   norm     0.82|0.02
de_v_cas_const        descent         Constant CAS                           156    140     167    beta     4.64|3.00|124.43|50.43
de_h_mach_const       descent         Constant Mach crossover altitude       9.7    8.6     10.8   norm     9.72|0.67
de_h_cas_const        descent         Constant CAS crossover altitude        6.7    4.2     9.2    norm     6.68|1.51
de_vs_avg_mach_const  descent         Mean descent rate, constant-Mach       -7.04  -12.03  -2.02  norm     -7.02|3.04
de_vs_avg_cas_const   descent         Mean descent rate, constant-CAS        -9.05  -13.36  -4.72  norm     -9.04|2.63
de_vs_avg_after_cas   descent         Mean descent rate, after-constant-CAS  -6.3   -7.92   -4.67  norm     -6.30|0.99
fa_va_avg             final_approach  Mean airspeed                          78     73      83     norm     78.67|3.38
fa_vs_avg             final_approach  Mean vertical rate                     -4.03  -4.49   -3.27  gamma    15.93|-5.43|0.09
fa_agl                final_approach  Approach angle                         2.95   2.44    3.46   norm     2.95|0.31
ld_v_app              landing         Touchdown speed                        76.9   70.8    83.1   norm     76.94|4.25
ld_d_brk              landing         Braking distance                       1.49   0.84    3.52   gamma    3.57|0.34|0.45
ld_acc_brk            landing         Mean braking acceleration              -1.33  -2      -0.66  norm     -1.33|0.41".
(** openap/data/wrap/b788.txt:1-36 *)
Definition wrap_b788 : string := "variable              flight phase    name                                   opt    min     max    model    parameters
to_v_lof              takeoff         Liftoff speed                          90.3   74.4    106.3  norm     90.35|11.10
to_d_tof              takeoff         Takeoff distance                       2.16   1.08    3.25   norm     2.16|0.66
to_acc_tof            takeoff         Mean takeoff accelaration              1.61   1.16    2.07   norm     1.61|0.28
ic_va_avg             initial_climb   Mean airspeed                          87     78      97     beta     3.16|3.65|71.08|36.50
ic_vs_avg             initial_climb   Mean vertical rate                     10.65  6.27    14.45  beta     6.24|5.05|0.78|17.49
cl_d_range            climb           Climb range                            286    146     427    norm     287.05|54.42
cl_v_cas_const        climb           Constant CAS                           158    146     170    norm     158.68|7.34
cl_v_mach_const       climb           Constant Mach                          0.85   0.81    0.87   beta     14.41|4.76|0.69|0.21
cl_h_cas_const        climb           Constant CAS crossover altitude        3.8    2.5     6.3    gamma    7.78|0.85|0.43
cl_h_mach_const       climb           Constant Mach crossover altitude       9.5    8.4     10.6   norm     9.52|0.68
cl_vs_avg_pre_cas     climb           Mean climb rate, pre-constant-CAS      9.58   7.32    11.85  norm     9.58|1.38
cl_vs_avg_cas_const   climb           Mean climb rate, constant-CAS          9.02   6.12    11.93  norm     9.02|1.77
cl_vs_avg_mach_const  climb           Mean climb rate, constant-Mach         6.02   3.59    8.47   norm     6.03|1.48
cr_d_range            cruise          Cruise range                           1874   269     11619  beta     1.14|1.87|206.46|12053.57
cr_v_cas_mean         cruise          Mean cruise CAS                        132    126     146    gamma    6.84|119.57|2.28
cr_v_cas_max          cruise          Maximum cruise CAS                     139    130     164    gamma    4.29|122.70|5.16
cr_v_mach_mean        cruise          Mean cruise Mach                       0.85   0.83    0.87   norm     0.85|0.01
cr_v_mach_max         cruise          Maximum cruise Mach                    0.87   0.85    0.91   gamma    16.44|0.80|0.00
cr_h_init             cruise          Initial cruise altitude                11.65  10.37   12.92  norm     11.65|0.78
cr_h_mean             cruise          Mean cruise altitude                   12.01  11.16   12.85  norm     12.01|0.51
cr_h_max              cruise          Maximum cruise altitude                12.28  11.52   13.06  norm     12.29|0.47
de_d_range            descent         Descent range                          292    219     551    gamma    3.85|198.90|32.88
de_v_mach_const       descent         Constant Mach                          0.84   0.8     0.87   norm     0.84|0.02
de_v_cas_const        descent         Constant CAS                           153    140     167    norm     153.71|8.29
de_h_mach_const       descent         Constant Mach crossover altitude       10.5   8.8     11.7   beta     3.43|2.59|7.57|4.76
de_h_cas_const        descent         Constant CAS crossover altitude        7      4.4     9.7    norm     7.06|1.58
de_vs_avg_mach_const  descent         Mean descent rate, constant-Mach       -7.59  -14.16  -3.35  beta     3.41|2.37|-18.73|17.46
de_vs_avg_cas_const   descent         Mean descent rate, constant-CAS        -9.52  -13.91  -5.11  norm     -9.51|2.67
de_vs_avg_after_cas   descent         Mean descent rate, after-constant-CAS  -6.2   -7.94   -4.45  norm     -6.19|1.06
fa_va_avg             final_approach  Mean airspeed                          75     70      80     norm     75.58|3.36
fa_vs_avg             final_approach  Mean vertical rate                     -3.99  -4.59   -3.11  gamma    24.44|-6.14|0.09
fa_agl                final_approach  Approach angle                         2.88   2.37    3.4    norm     2.88|0.31
ld_v_app              landing         Touchdown speed                        71.3   62      80.6   norm     71.29|6.48
ld_d_brk              landing         Braking distance                       2.08   0.45    3.71   norm     2.08|0.99
ld_acc_brk            landing         Mean braking acceleration              -1.12  -1.79   -0.46  norm     -1.12|0.40".
(** openap/data/wrap/b789.txt:1-36 *)
Definition wrap_b789 : string := "variable              flight phase    name                                   opt    min     max    model    parameters
to_v_lof              takeoff         Liftoff speed                          96.1   81.1    111.2  norm     96.15|10.46
to_d_tof              takeoff         Takeoff distance                       2.49   1.31    3.69   norm     2.50|0.72
to_acc_tof            takeoff         Mean takeoff accelaration              1.63   1.2     2.06   norm     1.63|0.26
ic_va_avg             initial_climb   Mean airspeed                          92     81      103    beta     3.43|3.27|72.17|39.84
ic_vs_avg             initial_climb   Mean vertical rate                     10.6   6.48    14.74  norm     10.61|2.51
cl_d_range            climb           Climb range                            263    173     420    beta     2.91|5.02|156.74|333.07
cl_v_cas_const        climb           Constant CAS                           163    151     174    norm     163.14|7.01
cl_v_mach_const       climb           Constant Mach                          0.84   0.82    0.87   norm     0.84|0.02
cl_h_cas_const        climb           Constant CAS crossover altitude        4.1    2.3     5.9    norm     4.10|1.07
cl_h_mach_const       climb           Constant Mach crossover altitude       9.1    8.1     10.2   norm     9.14|0.66
cl_vs_avg_pre_cas     climb           Mean climb rate, pre-constant-CAS      9.46   7.18    11.75  norm     9.47|1.39
cl_vs_avg_cas_const   climb           Mean climb rate, constant-CAS          8.68   6.04    11.81  beta     3.89|4.77|3.94|10.92
cl_vs_avg_mach_const  climb           Mean climb rate, constant-Mach         6.05   3.63    8.47   norm     6.05|1.47
cr_d_range            cruise          Cruise range                           5695   -3140   14555  norm     5707.50|3434.94
cr_v_cas_mean         cruise          Mean cruise CAS                        139    129     149    norm     139.87|6.06
cr_v_cas_max          cruise          Maximum cruise CAS                     148    133     170    beta     2.67|4.04|125.61|63.39
cr_v_mach_mean        cruise          Mean cruise Mach                       0.85   0.83    0.87   norm     0.85|0.01
cr_v_mach_max         cruise          Maximum cruise Mach                    0.87   0.85    0.92   gamma    6.01|0.83|0.01
cr_h_init             cruise          Initial cruise altitude                11.3   9.42    12.44  beta     4.59|2.75|7.61|5.49
cr_h_mean             cruise          Mean cruise altitude                   11.58  10.72   12.44  norm     11.58|0.52
cr_h_max              cruise          Maximum cruise altitude                11.99  11.28   12.7   norm     11.99|0.43
de_d_range            descent         Descent range                          293    224     550    gamma    3.57|207.20|33.45
de_v_mach_const       descent         Constant Mach                          0.84   0.79    0.87   beta     7.21|3.08|0.71|0.17
de_v_cas_const        descent         Constant CAS                           154    139     169    norm     154.59|8.89
de_h_mach_const       descent         Constant Mach crossover altitude       10.5   8.6     11.6   beta     3.21|2.22|7.41|4.75
de_h_cas_const        descent         Constant CAS crossover altitude        7      4.3     9.6    norm     6.99|1.61
de_vs_avg_mach_const  descent         Mean descent rate, constant-Mach       -7.16  -12.88  -2.81  beta     2.83|2.31|-16.09|15.29
de_vs_avg_cas_const   descent         Mean descent rate, constant-CAS        -9.14  -13.41  -4.84  norm     -9.13|2.61
de_vs_avg_after_cas   descent         Mean descent rate, after-constant-CAS  -6.19  -7.91   -4.46  norm     -6.18|1.05
fa_va_avg             final_approach  Mean airspeed                          77     72      83     norm     77.88|3.71
fa_vs_avg             final_approach  Mean vertical rate                     -4.15  -4.71   -3.15  gamma    11.92|-5.65|0.14
fa_agl                final_approach  Approach angle                         2.89   2.36    3.43   norm     2.89|0.32
ld_v_app              landing         Touchdown speed                        74     64.8    83.3   norm     74.07|6.42
ld_d_brk              landing         Braking distance                       2.49   0.68    4.31   norm     2.49|1.11
ld_acc_brk            landing         Mean braking acceleration              -1.11  -1.74   -0.47  norm     -1.11|0.38".
(** openap/data/wrap/e190.txt:1-36 *)
Definition wrap_e190 : string := "variable              flight phase    name                                   opt    min     max    model    parameters
to_v_lof              takeoff         Liftoff speed                          88.1   78.7    97.5   norm     88.13|6.52
to_d_tof              takeoff         Takeoff distance                       1.8    1.19    2.42   norm     1.81|0.38
to_acc_tof            takeoff         Mean takeoff accelaration              1.83   1.38    2.28   norm     1.83|0.27
ic_va_avg             initial_climb   Mean airspeed                          78     66      91     norm     78.72|8.77
ic_vs_avg             initial_climb   Mean vertical rate                     11.19  5.78    16.62  norm     11.20|3.30
cl_d_range            climb           Climb range                            215    162     389    gamma    4.36|144.99|21.11
cl_v_cas_const        climb           Constant CAS                           140    133     156    gamma    8.78|122.65|2.36
cl_v_mach_const       climb           Constant Mach                          0.75   0.71    0.8    norm     0.75|0.03
cl_h_cas_const        climb           Constant CAS crossover altitude        3      1.8     6.5    gamma    4.03|0.82|0.73
cl_h_mach_const       climb           Constant Mach crossover altitude       9.2    8.1     10.2   norm     9.19|0.63
cl_vs_avg_pre_cas     climb           Mean climb rate, pre-constant-CAS      10.44  7.18    13.71  norm     10.44|1.98
cl_vs_avg_cas_const   climb           Mean climb rate, constant-CAS          8.93   6.27    11.6   norm     8.93|1.62
cl_vs_avg_mach_const  climb           Mean climb rate, constant-Mach         4.82   2.95    6.7    norm     4.82|1.14
cr_d_range            cruise          Cruise range                           734    464     2710   gamma    1.98|433.55|308.41
cr_v_cas_mean         cruise          Mean cruise CAS                        131    120     141    norm     131.14|6.25
cr_v_cas_max          cruise          Maximum cruise CAS                     137    124     150    norm     137.30|7.93
cr_v_mach_mean        cruise          Mean cruise Mach                       0.77   0.74    0.81   norm     0.77|0.02
cr_v_mach_max         cruise          Maximum cruise Mach                    0.79   0.76    0.85   gamma    17.56|0.68|0.01
cr_h_init             cruise          Initial cruise altitude                10.99  9.99    12     norm     11.00|0.61
cr_h_mean             cruise          Mean cruise altitude                   11.05  10.05   12.05  norm     11.05|0.61
cr_h_max              cruise          Maximum cruise altitude                11.16  10.21   12.13  norm     11.17|0.58
de_d_range            descent         Descent range                          253    171     425    beta     2.17|3.85|161.90|315.91
de_v_mach_const       descent         Constant Mach                          0.77   0.72    0.81   norm     0.77|0.03
de_v_cas_const        descent         Constant CAS                           148    134     159    beta     3.94|3.27|124.00|42.94
de_h_mach_const       descent         Constant Mach crossover altitude       9.3    8       10.6   norm     9.29|0.78
de_h_cas_const        descent         Constant CAS crossover altitude        5.4    2.6     8.2    norm     5.42|1.72
de_vs_avg_mach_const  descent         Mean descent rate, constant-Mach       -5.25  -11.79  -2.1   beta     4.50|2.29|-18.06|17.51
de_vs_avg_cas_const   descent         Mean descent rate, constant-CAS        -9.08  -13.29  -4.85  norm     -9.07|2.56
de_vs_avg_after_cas   descent         Mean descent rate, after-constant-CAS  -5.9   -7.92   -3.88  norm     -5.90|1.23
fa_va_avg             final_approach  Mean airspeed                          70     64      76     norm     70.46|4.17
fa_vs_avg             final_approach  Mean vertical rate                     -3.57  -4.34   -2.81  norm     -3.57|0.47
fa_agl                final_approach  Approach angle                         2.92   2.38    3.46   norm     2.92|0.33
ld_v_app              landing         Touchdown speed                        66.9   56.6    77.2   norm     66.90|7.16
ld_d_brk              landing         Braking distance                       2.1    0.7     3.52   norm     2.11|0.86
ld_acc_brk            landing         Mean braking acceleration              -1.08  -1.8    -0.36  norm     -1.08|0.44".
(** openap/data/wrap/*.txt: name of the file and text *)
Definition wrap_files : list (string * string) :=
  [("a319", wrap_a319);
   ("a320", wrap_a320);
   ("a321", wrap_a321);
   ("a332", wrap_a332);
   ("a333", wrap_a333);
   ("a343", wrap_a343);
   ("a388", wrap_a388);
   ("b737", wrap_b737);
   ("b738", wrap_b738);
   ("b739", wrap_b739);
   ("b744", wrap_b744);
   ("b752", wrap_b752);
   ("b763", wrap_b763);
   ("b77w", wrap_b77w);
   ("b788", wrap_b788);
   ("b789", wrap_b789);
   ("e190", wrap_e190)].
(** openap/data/wrap/_synonym.csv:1-42 *)
Definition wrap_synonym : string := "orig,new
a124,b744
a19n,a320
a20n,a320
a21n,a320
a306,a332
a310,a319
a318,a319
a359,b789
at72,e190
at75,e190
at76,e190
b37m,b737
b38m,b737
b39m,b737
b3xm,b737
b733,b737
b734,b737
b735,b737
b748,b744
b762,b752
b772,b77w
b773,b77w
b77l,b77w
c25a,e190
c525,e190
c550,e190
c56x,e190
crj2,e190
crj9,e190
e145,e190
e170,e190
e75l,e190
e195,e190
e290,e190
glf5,e190
gl5t,e190
glf6,e190
lj45,e190
md11,b77w
pc24,e190
su95,e190".
