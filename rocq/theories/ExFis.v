(** Example lines for the FISPACT output reader, shortened from tests/test_output/fis_test1.out. *)
From Verif Require Import PyBase.

(** The first marker; what follows it is not read. *)
Definition ex_first : list str := map lit [
  "1 * * * TIME INTERVAL   1 * * * * * * * TIME IS   0.0000E+00 SECS * * * ELAPSED TIME IS   0.000ps   * * * FLUX AMP IS  0"]%string.
(** A time step with three nuclides (tests/test_output/fis_test1.out:367-602, shortened). *)
Definition ex_step : list str := map lit [
  "1 * * * TIME INTERVAL   3 * * * COOLING TIME IS   6.0000E+02 SECS OR  1.0000E+01 MINS  * * * ELAPSED TIME IS  20.000 m   * * * FLUX AMP IS  0.0000E+00 /cm^2/s  * * *";
  "  NUCLIDE        ATOMS         GRAMS        Bq       b-Energy    a-Energy   g-Energy    DOSE RATE";
  "                                                        kW          kW         kW         Sv/hr";
  "";
  "  H   3       3.25774E+07   1.632E-16   5.803E-02   5.307E-20   0.00E+00   0.000E+00   0.000E+00";
  "  V  50     > 2.95542E+22   2.451E+00   4.637E-03   1.165E-20   0.00E+00   1.058E-18   1.025E-17";
  "  V  52       3.12655E+09   2.697E-13   9.645E+06   1.645E-09   0.00E+00   2.238E-09   1.872E-08";
  "0  TOTAL NUMBER OF NUCLIDES PRINTED IN INVENTORY =    3";
  "0  TOTAL CURIES   TOTAL ALPHA   TOTAL BETA    TOTAL GAMMA";
  "                  CURIE-MeV     CURIE-MeV     CURIE-MeV";
  "   2.61267E-04   0.00000E+00   2.77954E-04   3.77845E-04";
  "0  ALPHA BECQUERELS = 0.000000E+00  BETA BECQUERELS = 9.666840E+06  GAMMA BECQUERELS = 4.745728E+01";
  "0  TOTAL ACTIVITY FOR ALL MATERIALS     9.66689E+06 Bq";
  "                                        1.51535E-06 Ci/cc           DENSITY   5.80E+00 gm/cc";
  "   TOTAL ACTIVITY EXCLUDING TRITIUM     9.66689E+06 Bq";
  "                                        1.51535E-06 Ci/cc";
  "0  TOTAL ALPHA HEAT PRODUCTION          0.00000E+00 kW";
  "   TOTAL BETA  HEAT PRODUCTION          1.64773E-09 kW";
  "   TOTAL GAMMA HEAT PRODUCTION          2.23988E-09 kW              TOTAL HEAT PRODUCTION 3.88761E-09 kW";
  "0  INITIAL TOTAL MASS OF MATERIAL       1.00000E+00 kg              TOTAL HEAT EX TRITIUM 3.88761E-09 kW";
  "0  TOTAL MASS OF MATERIAL               1.00000E+00 kg";
  "   NEUTRON  FLUX DURING INTERVAL        0.00000E+00 n/cm**2/s";
  "0  NUMBER OF FISSIONS                   0.00000E+00                 BURN-UP OF ACTINIDES  0.00000E+00 %";
  "0  APPM OF He  4    =  1.5508E-11";
  "   APPM OF He  3    =  8.4730E-12";
  "   APPM OF H   3    =  2.7557E-12";
  "   APPM OF H   2    =  9.3281E-12";
  "   APPM OF H   1    =  5.4402E-11";
  "";
  "";
  "";
  "                                               COMPOSITION  OF  MATERIAL  BY  ELEMENT";
  "                                               --------------------------------------";
  "0                                                             BETA                     GAMMA                     ALPHA";
  "                      ATOMS      GRAM-ATOMS     GRAMS      CURIES-MeV      kW        CURIES-MeV      kW        CURIES-MeV      kW";
  "";
  "    1       H       7.8597E+08   1.3051E-15   1.6083E-15   8.9518E-15   5.3067E-20   0.0000E+00   0.0000E+00   0.0000E+00   0.0000E+00";
  "   22       Ti      3.8382E+08   6.3735E-16   3.1114E-14   4.3121E-07   2.5562E-12   1.8278E-07   1.0835E-12   0.0000E+00   0.0000E+00";
  "   23       V       1.1822E+25   1.9630E+01   1.0000E+03   2.7746E-04   1.6448E-09   3.7757E-04   2.2382E-09   0.0000E+00   0.0000E+00";
  "";
  "";
  "";
  "                                               GAMMA SPECTRUM AND ENERGIES/SECOND";
  "                                               ----------------------------------";
  "";
  "     NEUTRONS PER SECOND ARISING FROM SPONTANEOUS FISSION                    0.00000E+00    Entered density (g/cc)       5.80";
  "     POWER FROM ALPHA PARTICLES (MeV per Second)                             0.00000E+00";
  "     POWER FROM BETA  PARTICLES (MeV per Second)                             1.02843E+07";
  "     TOTAL GAMMA POWER FROM ACTIVATION  (MeV per Second)                     1.39803E+07    Total gammas (per cc per second)      6.09133E+04";
  "     GAMMA RAY POWER FROM ACTIVATION DECAY  MeV/s        ( 0.00- 0.01 MeV)   1.20536E-01    Gammas per group (per cc per second)  1.39822E-01";
  "                                                         ( 0.01- 0.02 MeV)   8.53047E-06                                          3.29845E-06";
  "                                                         ( 0.02- 0.05 MeV)   4.85804E-05                                          8.05047E-06";
  "                                                         ( 0.05- 0.10 MeV)   1.24376E-04                                          9.61838E-06";
  "                                                         ( 0.10- 0.20 MeV)   2.67979E+01                                          1.03618E+00";
  "                                                         ( 0.20- 0.30 MeV)   1.56601E+01                                          3.63315E-01";
  "                                                         ( 0.30- 0.40 MeV)   5.85931E+03                                          9.70971E+01";
  "                                                         ( 0.40- 0.60 MeV)   1.80556E+03                                          2.09445E+01";
  "                                                         ( 0.60- 0.80 MeV)   1.79983E+03                                          1.49129E+01";
  "                                                         ( 0.80- 1.00 MeV)   6.60534E+03                                          4.25678E+01";
  "                                                         ( 1.00- 1.22 MeV)   1.85562E+03                                          9.69602E+00";
  "                                                         ( 1.22- 1.44 MeV)   1.39077E+07                                          6.06500E+04";
  "                                                         ( 1.44- 1.66 MeV)   1.74082E+04                                          6.51403E+01";
  "                                                         ( 1.66- 2.00 MeV)   2.24499E+03                                          7.11526E+00";
  "                                                         ( 2.00- 2.50 MeV)   9.55034E+02                                          2.46186E+00";
  "                                                         ( 2.50- 3.00 MeV)   2.28454E+02                                          4.81831E-01";
  "                                                         ( 3.00- 4.00 MeV)   7.98263E+02                                          1.32284E+00";
  "                                                         ( 4.00- 5.00 MeV)   3.75266E+00                                          4.83677E-03";
  "                                                         ( 5.00- 6.50 MeV)   1.70017E+00                                          1.71496E-03";
  "                                                         ( 6.50- 8.00 MeV)   0.00000E+00                                          0.00000E+00";
  "                                                         ( 8.00-10.00 MeV)   0.00000E+00                                          0.00000E+00";
  "                                                         (10.00-12.00 MeV)   0.00000E+00                                          0.00000E+00";
  "                                                         (12.00-14.00 MeV)   0.00000E+00                                          0.00000E+00";
  "                                                         (14.00-20.00 MeV)   0.00000E+00                                          0.00000E+00";
  "";
  "    DOSE RATE (1 g POINT SOURCE  0.3m) FROM GAMMAS WITH ENERGY 0-20MeV IS   1.87405E-08 Sieverts/hour   ( 1.87405E-06 Rems/hour)";
  "";
  "";
  "";
  "";
  "                                               DOMINANT NUCLIDES";
  "                                               -----------------";
  "";
  "      NUCLIDE   ACTIVITY    PERCENT  NUCLIDE     HEAT      PERCENT  NUCLIDE  DOSE RATE    PERCENT";
  "                  (Bq)      ACTIVITY             (kW)       HEAT              (Sv/hr)    DOSE RATE";
  "       Total   9.6669E+06             Total   3.8876E-09             Total   1.8740E-08";
  "    1  V  52   9.6447E+06  99.77E+00  V  52   3.8827E-09  99.87E+00  V  52   1.8724E-08  99.91E+00";
  "    2  Ti 51   1.8320E+04  18.95E-02  Ti 51   3.6205E-12  93.13E-03  Ti 51   9.7658E-12  52.11E-03";
  "       Rest    3.9042E+01  40.39E-05  Rest    8.0971E-15  20.83E-05  Rest    3.6519E-14  19.49E-05";
  "";
  "      NUCLIDE  GAMMA HEAT   PERCENT  NUCLIDE   BETA HEAT   PERCENT";
  "                  (kW)       GAMMA               (kW)       BETA";
  "       Total   2.2399E-09             Total   1.6477E-09";
  "    1  V  52   2.2381E-09  99.92E+00  V  52   1.6447E-09  99.81E+00";
  "    2  Ti 51   1.0700E-12  47.77E-03  Ti 51   2.5505E-12  15.48E-02";
  "       Rest    4.2218E-15  18.85E-05  Rest    2.1045E-15  12.77E-05"]%string.
(** The summary (tests/test_output/fis_test1.out:2613-2635). *)
Definition ex_summary : list str := map lit [
  "1                                                            Summary Output";
  "";
  "0           Time       Cumulative   Activity               Dose rate             Heat output           Ingestion dose        Inhalation dose        Tritium activity";
  "           (step)       (Years)      (Bq)                   (Sv/h)                (kW)                    (Sv)                   (Sv)                  (Bq)";
  " -----Irradiation Phase-----";
  " Irradn    10.000 m     1.90E-05   5.17E+07               1.00E-07               2.08E-08               0.00E+00               0.00E+00               5.80E-02";
  " Cooling   10.000 m     3.80E-05   9.67E+06               1.87E-08               3.89E-09               0.00E+00               0.00E+00               5.80E-02";
  " Irradn    10.000 m     5.70E-05   5.26E+07               1.02E-07               2.11E-08               0.00E+00               0.00E+00               1.16E-01";
  " Irradn     0.000ps     5.70E-05   5.26E+07 +/-    0.0%   1.02E-07 +/-    0.0%   2.11E-08 +/-    0.0%   0.00E+00 +/-    0.0%   0.00E+00 +/-    0.0%   1.16E-01";
  " -----Cooling Phase-----";
  " Cooling   60.000us     1.90E-12   5.26E+07 +/-    0.0%   1.02E-07 +/-    0.0%   2.11E-08 +/-    0.0%   0.00E+00 +/-    0.0%   0.00E+00 +/-    0.0%   1.16E-01";
  " Cooling   10.000 m     1.90E-05   9.28E+06 +/-    0.0%   1.80E-08 +/-    0.0%   3.73E-09 +/-    0.0%   0.00E+00 +/-    0.0%   0.00E+00 +/-    0.0%   1.16E-01";
  " Cooling   10.000 m     3.80E-05   1.23E+06 +/-    0.1%   2.37E-09 +/-    0.0%   4.92E-10 +/-    0.0%   0.00E+00 +/-    0.0%   0.00E+00 +/-    0.0%   1.16E-01";
  " Cooling   10.000 m     5.70E-05   1.51E+05 +/-    0.1%   2.90E-10 +/-    0.1%   6.01E-11 +/-    0.1%   0.00E+00 +/-    0.0%   0.00E+00 +/-    0.0%   1.16E-01";
  " Cooling   10.000 m     7.61E-05   2.30E+04 +/-    0.8%   4.24E-11 +/-    0.3%   8.67E-12 +/-    0.3%   0.00E+00 +/-    0.0%   0.00E+00 +/-    0.0%   1.16E-01";
  "0 Mass of material input =  1.0000E+00 kg.    Material density =  5.80 g/cc";
  "";
  "  Total irradiation time =  1.200000E+03 s";
  "  Total fluence          =  7.200000E+09 n/cm2";
  "  Mean flux              =  6.000000E+06 n/cm2/s";
  "  Number of on-times     =    3";
  "";
  "fispact run time=                   8.2558     secs"]%string.
