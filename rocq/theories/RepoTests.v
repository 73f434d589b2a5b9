(** * RepoTests: the project's own tests, run on the model

    Generated by tools/gen_repotests.py.  These are tests of the transcription, not theorems about it: each example runs the model of the whole program (ObjModel.abiftool_exact)
    on a command line and a file of /repo/testdata and checks what the test in /repo/pytests expects of the output.  Left out are the tests that need downloaded
    files and those about the layout of texttable and BeautifulSoup. *)

From Verif Require Import PyBase Jabmod JsonText JsonParse IrvModel PreflibModel HtmlModel DiagramModel ParserModel CliModel ArgvModel ScriptsModel ObjModel.
Local Open Scope Z_scope.

(** /repo/testdata/mock-elections/tennessee-example-scores.abif *)
Definition file_00 : str := u "{""title"": ""Tennessee capitol example""}
{""description"": ""Hypothetical example of selecting capitol of Tennessee, frequently used on Wikipedia and electowiki.  The proportion of voters is loosely based on the people who live in the metropolitan areas of the four largest cities in Tennessee, and the numeric ratings are based on crow-flying mileage to the city from the other metro areas.""}
# See https://electowiki.org/wiki/Tennessee_example for illustrations
=Memph:[Memphis, TN]
=Nash:[Nashville, TN]
=Chat:[Chattanooga, TN]
=Knox:[Knoxville, TN]
# -------------------------
# Ratings are 400 miles minus crow-flying mileage to city 
42:Memph/400>Nash/200>Chat/133>Knox/45
26:Nash/400>Chat/290>Knox/240>Memph/200
15:Chat/400>Knox/296>Nash/290>Memph/133
17:Knox/400>Chat/296>Nash/240>Memph/45
".
(** /repo/testdata/mock-elections/tennessee-example-STAR.abif *)
Definition file_01 : str := u "{""title"": ""Tennessee capitol example""}
{""description"": ""Hypothetical example of selecting capitol of Tennessee, frequently used on Wikipedia and electowiki.  This example uses theoretical STAR voting choices loosely based on distance between the cities.""}
{""min_rating"": 0}
{""max_rating"": 5}
# See https://electowiki.org/wiki/Tennessee_example for illustrations
=Memph:[Memphis, TN]
=Nash:[Nashville, TN]
=Chat:[Chattanooga, TN]
=Knox:[Knoxville, TN]
# -------------------------
42:Memph/5>Nash/2>Chat/1>Knox/0
26:Nash/5>Chat/3>Knox/2>Memph/0
15:Chat/5>Knox/3>Nash/2>Memph/0
17:Knox/5>Chat/3>Nash/1>Memph/0
".
(** /repo/testdata/mock-elections/tennessee-example-STAR-score-difference.abif *)
Definition file_02 : str := u "{""title"": ""Tennessee capitol example""}
{""description"": ""This example ABIF file is contrived to cause a different score voting and STAR voting winner.""}
{""min_rating"": 0}
{""max_rating"": 5}
# See https://electowiki.org/wiki/Tennessee_example for illustrations
=Memph:[Memphis, TN]
=Nash:[Nashville, TN]
=Chat:[Chattanooga, TN]
=Knox:[Knoxville, TN]
# -------------------------
42:Memph/5>Nash/0>Chat/0>Knox/0
26:Nash/5>Chat/4>Knox/4>Memph/0
15:Chat/5>Knox/4>Nash/3>Memph/0
17:Knox/5>Chat/4>Nash/3>Memph/0
".
(** /repo/testdata/commasep/tn-example-scores-and-commas.abif *)
Definition file_03 : str := u "{""title"": ""Comma-based TN capitol example""}
{""description"": ""Strictly score-based version of Tennessee example, with leading zeros to make the columns line up.""}
# See https://electowiki.org/wiki/Tennessee_example for illustrations
=Memph:[Memphis, TN]
=Nash:[Nashville, TN]
=Chat:[Chattanooga, TN]
=Knox:[Knoxville, TN]
# -------------------------
# Ratings are 400 miles minus crow-flying mileage to city 
42:Memph/400,Nash/200,Chat/133,Knox/045
26:Memph/200,Nash/400,Chat/290,Knox/240
15:Memph/133,Nash/290,Chat/400,Knox/296
17:Memph/045,Nash/240,Chat/296,Knox/400
".
(** /repo/testdata/burl2009/burl2009.abif *)
Definition file_04 : str := u "{version: ""0.1""}
{title: ""2009 Burlington mayoral election""}
{description: ""The mayoral election of 2009 when Bob Kiss (from the Vermont Progressive Party), defeated Andy Montroll (from the Democratic Party), and Kurt Wright (from the Republican Party) by the counting rules in place at the time (instant-runoff voting / ranked-choice voting).""}
#-----------------------
=Kiss:[Bob Kiss (Progressive)]
=Montroll:[Andy Montroll (Democrat)]
=Simpson:[James Simpson (Green)]
=Smith:[Dan Smith (Independent)]
=Wright:[Kurt Wright (Republican)]
=Write-in:[Write-in]
#-----------------------
840:Wright
355:Kiss>Montroll
326:Kiss
271:Wright>Smith
256:Wright>Montroll
234:Kiss>Montroll>Smith
200:Montroll>Kiss
178:Montroll
147:Wright>Montroll>Smith
145:Montroll>Kiss>Smith
139:Montroll>Smith
125:Kiss>Smith
124:Smith
123:Kiss>Montroll>Smith>Wright>Simpson
122:Wright>Smith>Montroll
121:Kiss>Smith>Montroll
120:Kiss>Montroll>Smith>Simpson>Wright
104:Wright>Montroll>Smith>Simpson>Kiss
103:Kiss>Montroll>Simpson>Smith>Wright
102:Wright>Montroll>Smith>Kiss>Simpson
101:Wright>Smith>Montroll>Kiss>Simpson
94:Montroll>Wright
93:Montroll>Smith>Kiss
93:Smith>Wright
90:Wright>Smith>Montroll>Simpson>Kiss
90:Smith>Montroll
88:Smith>Kiss>Montroll
83:Smith>Montroll>Kiss
80:Wright>Kiss
80:Kiss>Smith>Montroll>Simpson>Wright
76:Wright>Smith>Simpson>Montroll>Kiss
72:Montroll>Kiss>Smith>Wright>Simpson
71:Kiss>Montroll>Wright>Smith>Simpson
69:Wright>Montroll>Kiss>Smith>Simpson
69:Montroll>Smith>Kiss>Wright>Simpson
66:Kiss>Wright
62:Montroll>Smith>Wright
61:Montroll>Kiss>Smith>Simpson>Wright
60:Montroll>Wright>Smith>Kiss>Simpson
60:Kiss>Montroll>Smith>Wright
58:Smith>Kiss>Montroll>Simpson>Wright
57:Montroll>Wright>Smith
56:Montroll>Wright>Kiss>Smith>Simpson
55:Kiss>Smith>Montroll>Wright>Simpson
54:Wright>Montroll>Smith>Kiss
53:Montroll>Smith>Kiss>Simpson>Wright
52:Smith>Wright>Montroll>Kiss>Simpson
52:Wright>Smith>Kiss>Montroll>Simpson
52:Montroll>Smith>Wright>Kiss>Simpson
52:Kiss>Montroll>Simpson
51:Smith>Kiss
50:Wright>Kiss>Montroll>Smith>Simpson
50:Smith>Wright>Montroll
50:Montroll>Kiss>Wright>Smith>Simpson
48:Kiss>Montroll>Wright
46:Wright>Montroll>Kiss
46:Montroll>Kiss>Wright
45:Wright>Kiss>Smith>Montroll>Simpson
45:Wright>Smith>Montroll>Kiss
43:Smith>Montroll>Kiss>Wright>Simpson
42:Kiss>Montroll>Smith>Simpson
41:Montroll>Smith>Kiss>Wright
41:Kiss>Montroll>Simpson>Smith
39:Kiss>Wright>Montroll>Smith>Simpson
39:Montroll>Wright>Smith>Simpson>Kiss
38:Smith>Montroll>Kiss>Simpson>Wright
38:Montroll>Kiss>Smith>Wright
37:Smith>Montroll>Wright
37:Montroll>Wright>Smith>Kiss
34:Montroll>Wright>Kiss
32:Smith>Kiss>Montroll>Wright>Simpson
32:Montroll>Smith>Wright>Kiss
31:Smith>Montroll>Wright>Kiss>Simpson
31:Kiss>Wright>Montroll
30:Wright>Smith>Kiss
29:Kiss>Smith>Montroll>Wright
28:Smith>Wright>Montroll>Simpson>Kiss
27:Montroll>Kiss>Simpson>Smith>Wright
27:Smith>Kiss>Montroll>Wright
27:Smith>Wright>Kiss>Montroll>Simpson
27:Smith>Montroll>Wright>Kiss
27:Montroll>Smith>Simpson>Kiss>Wright
26:Smith>Montroll>Kiss>Wright
26:Kiss>Smith>Wright>Montroll>Simpson
25:Wright>Simpson
24:Montroll>Kiss>Wright>Smith
24:Wright>Kiss>Montroll
24:Kiss>Montroll>Wright>Smith
24:Kiss>Simpson>Montroll>Smith>Wright
23:Montroll>Smith>Wright>Simpson>Kiss
23:Kiss>Smith>Simpson>Montroll>Wright
22:Montroll>Kiss>Smith>Simpson
21:Wright>Kiss>Montroll>Simpson>Smith
21:Wright>Kiss>Smith
21:Kiss>Smith>Montroll>Simpson
21:Kiss>Wright>Smith>Montroll>Simpson
20:Montroll>Wright>Kiss>Smith
19:Wright>Montroll>Simpson>Smith>Kiss
19:Kiss>Simpson
19:Wright>Smith>Kiss>Montroll
18:Smith>Montroll>Simpson>Kiss>Wright
17:Wright>Smith>Kiss>Simpson>Montroll
17:Smith>Wright>Montroll>Kiss
16:Wright>Smith>Simpson
16:Smith>Wright>Kiss
16:Smith>Kiss>Wright>Montroll>Simpson
16:Kiss>Simpson>Montroll
15:Kiss>Wright>Smith>Montroll
15:Wright>Montroll>Kiss>Smith
15:Kiss>Smith>Simpson
15:Smith>Montroll>Simpson>Wright>Kiss
15:Wright>Kiss>Montroll>Smith
15:Wright>Smith>Simpson>Kiss>Montroll
15:Kiss>Smith>Wright>Montroll
14:Smith>Kiss>Simpson>Montroll>Wright
14:Kiss>Montroll>Wright>Simpson>Smith
13:Kiss>Montroll>Simpson>Wright>Smith
13:Kiss>Smith>Wright
13:Smith>Montroll>Wright>Simpson>Kiss
13:Smith>Kiss>Montroll>Simpson
13:Montroll>Smith>Kiss>Simpson
12:Montroll>Kiss>Simpson
12:Wright>Kiss>Smith>Simpson>Montroll
12:Smith>Wright>Kiss>Montroll
12:Kiss>Simpson>Smith>Montroll>Wright
12:Kiss>Wright>Montroll>Smith
12:Smith>Wright>Simpson>Montroll>Kiss
12:Kiss>Wright>Montroll>Simpson>Smith
12:Kiss>Wright>Smith
12:Montroll>Wright>Simpson>Smith>Kiss
11:Montroll>Kiss>Wright>Simpson>Smith
11:Smith>Kiss>Wright
11:Montroll>Smith>Simpson>Wright>Kiss
11:Montroll>Kiss>Simpson>Smith
11:Wright>Write-in
11:Wright>Simpson>Smith>Montroll>Kiss
10:Smith>Kiss>Wright>Simpson>Montroll
10:Write-in
10:Wright>Smith>Montroll>Simpson
10:Wright>Simpson>Smith>Kiss>Montroll
9:Kiss>Smith>Montroll>Simpson>Write-in
9:Wright>Montroll>Kiss>Simpson>Smith
9:Montroll>Simpson>Smith
9:Kiss>Montroll>Smith>Simpson>Write-in
9:Montroll>Simpson>Kiss>Smith>Wright
9:Kiss>Smith>Simpson>Montroll
9:Smith>Simpson>Montroll>Kiss>Wright
8:Montroll>Simpson>Smith>Kiss>Wright
8:Smith>Montroll>Kiss>Simpson
8:Montroll>Simpson>Smith>Wright>Kiss
8:Kiss>Simpson>Montroll>Smith
8:Wright>Simpson>Smith
8:Montroll>Smith>Simpson
8:Smith>Kiss>Wright>Montroll
8:Kiss>Simpson>Smith
7:Montroll>Simpson>Kiss
7:Wright>Montroll>Smith>Simpson
7:Kiss>Simpson>Montroll>Wright>Smith
7:Wright>Montroll>Simpson>Kiss>Smith
7:Smith>Kiss>Simpson
6:Montroll>Kiss>Smith>Simpson>Write-in
6:Kiss>Smith>Simpson>Wright>Montroll
6:Kiss>Simpson>Smith>Montroll
6:Kiss>Wright>Smith>Simpson>Montroll
6:Kiss>Wright>Simpson>Smith>Montroll
6:Kiss>Smith>Simpson>Montroll>Write-in
6:Smith>Simpson
5:Smith>Kiss>Simpson>Montroll
5:Smith>Wright>Kiss>Simpson>Montroll
5:Smith>Simpson>Kiss>Montroll>Wright
5:Montroll>Write-in
5:Montroll>Wright>Smith>Simpson
5:Wright>Kiss>Smith>Montroll
5:Kiss>Wright>Simpson>Montroll>Smith
5:Smith>Kiss>Montroll>Write-in>Simpson
5:Kiss>Smith>Wright>Simpson>Montroll
5:Wright>Simpson>Montroll>Smith>Kiss
5:Smith>Montroll>Simpson
5:Smith>Simpson>Montroll
5:Wright>Smith>Simpson>Montroll
4:Simpson>Smith>Kiss>Montroll>Wright
4:Montroll>Simpson
4:Kiss>Write-in>Montroll>Smith>Simpson
4:Montroll>Kiss>Simpson>Wright>Smith
4:Montroll>Smith>Wright>Simpson
4:Wright>Smith>Write-in
4:Wright>Simpson>Montroll>Kiss
4:Kiss>Smith>Montroll>Write-in>Simpson
4:Smith>Simpson>Kiss>Montroll
4:Smith>Wright>Simpson
4:Kiss>Wright>Montroll>Simpson
4:Kiss>Write-in
4:Wright>Simpson>Montroll>Kiss>Smith
4:Wright>Montroll>Write-in
4:Montroll>Kiss>Wright>Simpson
4:Montroll>Smith>Wright>Write-in
3:Simpson>Wright
3:Simpson>Kiss
3:Montroll>Kiss>Write-in
3:Smith>Wright>Montroll>Simpson
3:Montroll>Kiss>Smith>Wright>Write-in
3:Smith>Simpson>Montroll>Kiss>Write-in
3:Kiss>Simpson>Wright>Montroll>Smith
3:Kiss>Montroll>Simpson>Smith>Write-in
3:Kiss>Simpson>Smith>Wright>Montroll
3:Montroll>Wright>Kiss>Simpson>Smith
3:Write-in>Montroll
3:Wright>Montroll>Simpson
3:Kiss>Smith>Write-in>Montroll>Simpson
3:Simpson
3:Write-in>Wright
3:Montroll>Wright>Simpson
3:Wright>Simpson>Write-in
3:Smith>Montroll>Kiss>Write-in>Simpson
3:Smith>Wright>Simpson>Montroll
3:Write-in>Kiss
3:Smith>Montroll>Write-in
2:Kiss>Wright>Smith>Simpson
2:Wright>Kiss>Simpson>Smith>Montroll
2:Smith>Wright>Simpson>Kiss>Montroll
2:Montroll>Smith>Kiss>Simpson>Write-in
2:Kiss>Smith>Write-in
2:Smith>Wright>Write-in
2:Smith>Simpson>Kiss
2:Montroll>Smith>Wright>Write-in>Kiss
2:Smith>Montroll>Simpson>Kiss
2:Wright>Write-in>Montroll>Kiss
2:Wright>Kiss>Simpson
2:Wright>Kiss>Smith>Simpson
2:Smith>Simpson>Wright
2:Simpson>Kiss>Montroll
2:Montroll>Simpson>Smith>Wright
2:Montroll>Simpson>Kiss>Smith
2:Smith>Kiss>Write-in>Montroll>Simpson
2:Montroll>Write-in>Kiss>Smith>Simpson
2:Montroll>Simpson>Wright>Kiss>Smith
2:Smith>Kiss>Montroll>Write-in>Wright
2:Montroll>Smith>Simpson>Kiss
2:Wright>Simpson>Kiss>Montroll>Smith
2:Smith>Kiss>Simpson>Montroll>Write-in
2:Write-in>Montroll>Smith
2:Write-in>Montroll>Smith>Simpson>Kiss
2:Montroll>Kiss>Smith>Write-in>Simpson
2:Montroll>Simpson>Wright
2:Kiss>Montroll>Wright>Write-in
2:Smith>Montroll>Kiss>Wright>Write-in
2:Kiss>Montroll>Write-in
2:Montroll>Simpson>Kiss>Wright
2:Simpson>Kiss>Montroll>Wright>Smith
2:Write-in>Montroll>Simpson>Smith>Kiss
2:Kiss>Simpson>Wright
2:Write-in>Montroll>Smith>Kiss>Simpson
2:Smith>Simpson>Kiss>Wright>Montroll
2:Smith>Simpson>Wright>Montroll>Kiss
2:Smith>Montroll>Kiss>Write-in>Wright
2:Kiss>Simpson>Montroll>Write-in>Smith
2:Wright>Montroll>Simpson>Kiss
2:Montroll>Smith>Wright>Simpson>Write-in
2:Wright>Write-in>Montroll>Smith>Kiss
2:Kiss>Simpson>Smith>Wright
2:Wright>Smith>Montroll>Simpson>Write-in
2:Montroll>Simpson>Wright>Smith>Kiss
1:Montroll>Wright>Write-in>Simpson>Kiss
1:Smith>Kiss>Montroll>Simpson>Write-in
1:Kiss>Montroll>Simpson>Wright
1:Wright>Montroll>Simpson>Smith
1:Kiss>Simpson>Montroll>Wright>Write-in
1:Write-in>Wright>Smith>Simpson>Montroll
1:Wright>Simpson>Kiss
1:Wright>Write-in>Simpson
1:Write-in=Wright>Montroll>Kiss>Smith
1:Kiss>Simpson>Montroll>Smith>Write-in
1:Wright>Write-in>Montroll>Smith>Simpson
1:Kiss>Smith>Montroll>Write-in
1:Simpson>Smith>Wright
1:Kiss>Write-in>Smith>Montroll>Simpson
1:Smith>Simpson>Montroll>Write-in>Kiss
1:Write-in>Smith
1:Write-in>Montroll>Kiss>Smith>Simpson
1:Kiss>Montroll>Smith>Write-in
1:Wright>Write-in>Kiss
1:Write-in>Wright>Simpson>Montroll>Kiss
1:Wright>Smith>Write-in>Montroll
1:Montroll>Kiss>Smith>Write-in>Wright
1:Write-in>Kiss>Wright>Montroll
1:Kiss>Write-in>Wright>Smith>Simpson
1:Simpson>Wright>Kiss>Smith>Montroll
1:Simpson>Smith>Kiss
1:Simpson>Montroll>Wright>Smith>Kiss
1:Kiss>Write-in>Wright
1:Smith>Wright>Kiss>Montroll>Write-in
1:Simpson>Smith>Montroll>Kiss>Wright
1:Kiss>Write-in>Montroll
1:Smith>Simpson>Write-in>Montroll>Kiss
1:Smith>Simpson>Kiss>Wright
1:Montroll>Simpson>Wright>Kiss
1:Kiss>Wright>Simpson>Montroll
1:Simpson>Write-in
1:Wright>Smith>Montroll>Write-in>Simpson
1:Wright>Simpson>Kiss>Smith>Montroll
1:Montroll>Write-in>Simpson
1:Wright>Write-in>Montroll
1:Write-in=Wright>Smith>Montroll>Simpson>Kiss
1:Kiss>Montroll>Smith>Wright>Write-in
1:Simpson>Montroll>Smith>Wright>Kiss
1:Wright>Montroll>Kiss>Simpson
1:Kiss>Simpson>Smith>Write-in
1:Simpson>Montroll>Wright>Kiss>Write-in
1:Montroll>Simpson>Wright>Write-in>Kiss
1:Smith>Write-in
1:Montroll>Write-in>Simpson>Smith
1:Smith>Montroll>Kiss>Simpson>Write-in
1:Montroll>Simpson>Smith>Kiss
1:Montroll>Smith>Simpson>Wright
1:Montroll>Smith>Wright=Simpson>Kiss
1:Smith>Montroll>Wright>Write-in>Simpson
1:Write-in>Smith>Kiss>Wright>Montroll
1:Kiss>Simpson>Smith>Write-in>Wright
1:Smith>Kiss>Wright>Simpson>Write-in
1:Wright>Simpson>Montroll>Smith
1:Kiss>Write-in>Wright>Simpson>Smith
1:Write-in=Wright>Montroll
1:Smith>Simpson>Montroll>Wright
1:Kiss>Simpson>Wright>Smith>Montroll
1:Simpson>Kiss>Smith>Montroll>Write-in
1:Kiss>Wright>Smith>Montroll>Write-in
1:Simpson>Montroll>Smith
1:Smith>Kiss>Wright>Simpson
1:Wright>Smith>Montroll>Write-in>Kiss
1:Smith>Montroll>Simpson>Kiss>Write-in
1:Wright>Montroll>Write-in>Smith>Kiss
1:Montroll>Simpson>Write-in>Smith>Kiss
1:Wright>Write-in>Smith>Montroll>Simpson
1:Montroll>Wright>Write-in
1:Wright>Kiss>Simpson>Montroll
1:Simpson>Kiss>Montroll>Smith>Wright
1:Wright>Simpson>Smith>Write-in>Montroll
1:Write-in=Kiss>Wright>Montroll>Smith>Simpson
1:Smith>Simpson>Write-in
1:Wright>Montroll>Smith>Kiss>Write-in
1:Wright>Smith>Montroll=Kiss
1:Smith>Simpson>Montroll>Kiss
1:Montroll>Smith>Simpson>Wright>Write-in
1:Wright>Smith>Simpson>Montroll>Write-in
1:Write-in>Kiss>Smith>Simpson>Montroll
1:Kiss>Simpson>Write-in>Montroll>Wright
1:Montroll>Kiss>Simpson>Wright
1:Montroll>Kiss>Write-in>Wright>Simpson
1:Kiss>Smith>Wright>Simpson
1:Montroll>Kiss>Write-in>Wright
1:Montroll>Kiss>Simpson>Smith>Write-in
1:Kiss>Smith>Simpson>Write-in>Montroll
1:Kiss>Montroll>Write-in>Wright>Simpson
1:Smith>Simpson>Montroll>Wright>Kiss
1:Wright>Simpson>Montroll
1:Simpson>Kiss>Montroll>Wright>Write-in
1:Smith>Kiss>Simpson>Wright
1:Wright>Simpson>Smith>Montroll>Write-in
1:Wright>Smith>Write-in>Montroll>Simpson
1:Montroll>Simpson>Smith>Kiss>Write-in
1:Smith>Kiss>Montroll>Wright>Write-in
1:Montroll>Wright>Simpson>Kiss>Smith
1:Kiss>Montroll>Simpson>Write-in>Wright
1:Simpson>Kiss>Smith>Montroll
1:Wright>Smith>Kiss>Montroll>Write-in
1:Kiss>Wright>Simpson>Montroll>Write-in
1:Kiss>Write-in>Montroll>Smith
1:Wright>Smith>Write-in>Simpson
1:Montroll>Wright>Smith>Write-in
1:Simpson>Smith>Wright>Montroll>Kiss
1:Simpson>Kiss>Montroll>Smith
1:Wright>Montroll>Kiss>Smith>Write-in
1:Smith>Montroll>Wright>Simpson
1:Simpson>Kiss>Wright>Montroll>Smith
1:Write-in>Kiss>Montroll
1:Simpson>Smith>Montroll
1:Write-in>Montroll>Kiss>Wright
1:Montroll>Write-in>Smith>Kiss>Simpson
1:Smith>Simpson>Wright>Kiss>Montroll
1:Kiss>Simpson>Write-in
1:Simpson>Kiss>Smith>Wright
1:Kiss>Smith>Montroll>Write-in>Wright
1:Wright>Kiss>Simpson>Montroll>Smith
1:Montroll>Kiss>Simpson>Write-in>Smith

".
(** /repo/testdata/commasep/jman722-example.abif *)
Definition file_05 : str := u "# this was an example posted to reddit in 2021 by /u/jman722
12: Allie/5, Billy/5, Candace/4, Dennis/3, Edith/3, Frank/2, Georgie/1, Harold/0
7: Allie/4, Billy/0, Candace/2, Dennis/3, Edith/1, Frank/0, Georgie/5, Harold/3
5: Allie/0, Billy/3, Candace/2, Dennis/3, Edith/4, Frank/5, Georgie/3, Harold/4
".
(** /repo/testdata/mock-elections/tennessee-example-overvote-02.abif *)
Definition file_06 : str := u "42:Memph>Nash>Chat>Knox
26:Nash>Chat>Knox>Memph
15:Chat>Knox>Nash>Memph
17:Knox=Chat=Nash>Memph
".
(** /repo/testdata/mock-elections/tennessee-example-irv-tie.abif *)
Definition file_07 : str := u "{""title"": ""Tennessee capitol example""}
{""description"": ""Hypothetical example of selecting capitol of Tennessee, only this time representing a tie election rather than an outright win.""}
=Memph:[Memphis, TN]
=Nash:[Nashville, TN]
=Chat:[Chattanooga, TN]
=Knox:[Knoxville, TN]
# -------------------------
42:Memph>Nash>Chat/133>Knox/45
20:Nash>Chat>Knox/240>Memph/200
10:Chat>Knox>Nash/290>Memph/133
12:Knox>Chat>Nash/240>Memph/45
".
(** /repo/testdata/mock-elections/tennessee-example-simple.abif *)
Definition file_08 : str := u "42:Memph>Nash>Chat>Knox
26:Nash>Chat>Knox>Memph
15:Chat>Knox>Nash>Memph
17:Knox>Chat>Nash>Memph
".
(** /repo/testdata/california/simple001-example.jabmod.json *)
Definition file_09 : str := u "{
    ""candidates"": {
        ""(none)"": null,
        ""MICHELLE_BRAVO"": ""MICHELLE BRAVO"",
        ""JEFF_SHEEHY"": ""JEFF SHEEHY"",
        ""LONDON_BREED"": ""LONDON BREED"",
        ""LAWRENCE_STARK_DAGES"": ""LAWRENCE ''STARK'' DAGESSE"",
        ""MARK_LENO"": ""MARK LENO"",
        ""RAFAEL_MANDELMAN"": ""RAFAEL MANDELMAN"",
        ""WRITE_IN"": ""WRITE-IN"",
        ""JANE_KIM"": ""JANE KIM"",
        ""RICHIE_GREENBERG"": ""RICHIE GREENBERG"",
        ""ANGELA_ALIOTO"": ""ANGELA ALIOTO"",
        ""AMY_FARAH_WEISS"": ""AMY FARAH WEISS"",
        ""ELLEN_LEE_ZHOU"": ""ELLEN LEE ZHOU"",
        ""wi_ANTOINE_R_ROGERS"": ""WRITE-IN ANTOINE R. ROGERS""
    },
    ""metadata"": {
        ""ballotcount"": 0,
        ""contestid"": ""0000020""
    },
    ""votelines"": [
        {
            ""prefs"": {
                ""LONDON_BREED"": {
                    ""rank"": 1
                },
                ""JANE_KIM"": {
                    ""rank"": 2
                },
                ""MARK_LENO"": {
                    ""rank"": 3
                }
            },
            ""qty"": 1
        },
        {
            ""prefs"": {
                ""LONDON_BREED"": {
                    ""rank"": 1
                },
                ""JANE_KIM"": {
                    ""rank"": 2
                },
                ""MARK_LENO"": {
                    ""rank"": 3
                }
            },
            ""qty"": 1
        },
        {
            ""prefs"": {
                ""LONDON_BREED"": {
                    ""rank"": 1
                },
                ""JANE_KIM"": {
                    ""rank"": 2
                },
                ""MARK_LENO"": {
                    ""rank"": 3
                }
            },
            ""qty"": 1
        },
        {
            ""prefs"": {
                ""LONDON_BREED"": {
                    ""rank"": 1
                },
                ""JANE_KIM"": {
                    ""rank"": 2
                },
                ""MARK_LENO"": {
                    ""rank"": 3
                }
            },
            ""qty"": 1
        },
        {
            ""prefs"": {
                ""LONDON_BREED"": {
                    ""rank"": 1
                },
                ""JANE_KIM"": {
                    ""rank"": 2
                },
                ""MARK_LENO"": {
                    ""rank"": 3
                }
            },
            ""qty"": 1
        },
        {
            ""prefs"": {
                ""MARK_LENO"": {
                    ""rank"": 1
                },
                ""LONDON_BREED"": {
                    ""rank"": 2
                },
                ""JANE_KIM"": {
                    ""rank"": 3
                }
            },
            ""qty"": 1
        },
        {
            ""prefs"": {
                ""MARK_LENO"": {
                    ""rank"": 1
                },
                ""LONDON_BREED"": {
                    ""rank"": 2
                },
                ""JANE_KIM"": {
                    ""rank"": 3
                }
            },
            ""qty"": 1
        },
        {
            ""prefs"": {
                ""MARK_LENO"": {
                    ""rank"": 1
                },
                ""LONDON_BREED"": {
                    ""rank"": 2
                },
                ""JANE_KIM"": {
                    ""rank"": 3
                }
            },
            ""qty"": 1
        },
        {
            ""prefs"": {
                ""MARK_LENO"": {
                    ""rank"": 1
                },
                ""LONDON_BREED"": {
                    ""rank"": 2
                },
                ""JANE_KIM"": {
                    ""rank"": 3
                }
            },
            ""qty"": 1
        },
        {
            ""prefs"": {
                ""JANE_KIM"": {
                    ""rank"": 1
                },
                ""ELLEN_LEE_ZHOU"": {
                    ""rank"": 2
                },
                ""MARK_LENO"": {
                    ""rank"": 3
                }
            },
            ""qty"": 1
        },
        {
            ""prefs"": {
                ""JANE_KIM"": {
                    ""rank"": 1
                },
                ""ELLEN_LEE_ZHOU"": {
                    ""rank"": 2
                },
                ""MARK_LENO"": {
                    ""rank"": 3
                }
            },
            ""qty"": 1
        },
        {
            ""prefs"": {
                ""JANE_KIM"": {
                    ""rank"": 1
                },
                ""ELLEN_LEE_ZHOU"": {
                    ""rank"": 2
                },
                ""MARK_LENO"": {
                    ""rank"": 3
                }
            },
            ""qty"": 1
        }
    ]
}
".
(** /repo/testdata/california/sf2018special-results.abif *)
Definition file_10 : str := u "#------- metadata -------
{ballotcount: 254016}
{contestid: ""0000020""}
#------ candlines ------
=MICHELLE_BRAVO:[MICHELLE BRAVO]
=JEFF_SHEEHY:[JEFF SHEEHY]
=LONDON_BREED:[LONDON BREED]
=LAWRENCE_STARK_DAGES:[LAWRENCE ''STARK'' DAGESSE]
=MARK_LENO:[MARK LENO]
=RAFAEL_MANDELMAN:[RAFAEL MANDELMAN]
=WRITE_IN:[WRITE-IN]
=JANE_KIM:[JANE KIM]
=RICHIE_GREENBERG:[RICHIE GREENBERG]
=ANGELA_ALIOTO:[ANGELA ALIOTO]
=AMY_FARAH_WEISS:[AMY FARAH WEISS]
=ELLEN_LEE_ZHOU:[ELLEN LEE ZHOU]
=wi_ANTOINE_R_ROGERS:[WRITE-IN ANTOINE R. ROGERS]
#------- votelines ------
319:JANE_KIM>ELLEN_LEE_ZHOU>MARK_LENO
86:JANE_KIM>ANGELA_ALIOTO>RICHIE_GREENBERG
1798:JANE_KIM>LONDON_BREED>ANGELA_ALIOTO
10848:LONDON_BREED>JANE_KIM>MARK_LENO
3118:MARK_LENO>LONDON_BREED>ANGELA_ALIOTO
7705:MARK_LENO>LONDON_BREED>JANE_KIM
290:MARK_LENO>ANGELA_ALIOTO>MICHELLE_BRAVO
4231:LONDON_BREED>ANGELA_ALIOTO>MARK_LENO
18:ELLEN_LEE_ZHOU>MICHELLE_BRAVO>JANE_KIM
156:MARK_LENO>ANGELA_ALIOTO
172:ELLEN_LEE_ZHOU>MARK_LENO>ANGELA_ALIOTO
6188:LONDON_BREED>MARK_LENO>ANGELA_ALIOTO
10484:JANE_KIM>MARK_LENO>LONDON_BREED
1715:MARK_LENO
543:ELLEN_LEE_ZHOU>LONDON_BREED>MARK_LENO
59:MARK_LENO>MICHELLE_BRAVO>AMY_FARAH_WEISS
66:ELLEN_LEE_ZHOU>LONDON_BREED>AMY_FARAH_WEISS
5761:JANE_KIM>LONDON_BREED>MARK_LENO
454:JANE_KIM>LONDON_BREED>AMY_FARAH_WEISS
14457:LONDON_BREED
4238:LONDON_BREED>JANE_KIM>ANGELA_ALIOTO
763:LONDON_BREED>MARK_LENO>RICHIE_GREENBERG
11937:LONDON_BREED>MARK_LENO>JANE_KIM
1076:JANE_KIM
5662:LONDON_BREED
318:JANE_KIM>MARK_LENO>RICHIE_GREENBERG
26:RICHIE_GREENBERG>ELLEN_LEE_ZHOU
4649:JANE_KIM>MARK_LENO>ANGELA_ALIOTO
688:ANGELA_ALIOTO>JANE_KIM>LONDON_BREED
347:ELLEN_LEE_ZHOU>RICHIE_GREENBERG>ANGELA_ALIOTO
506:ELLEN_LEE_ZHOU>ANGELA_ALIOTO>RICHIE_GREENBERG
418:JANE_KIM>ELLEN_LEE_ZHOU>LONDON_BREED
492:MARK_LENO>JANE_KIM>RICHIE_GREENBERG
187:ELLEN_LEE_ZHOU>ANGELA_ALIOTO>MARK_LENO
1670:MARK_LENO>ANGELA_ALIOTO>JANE_KIM
11074:MARK_LENO>JANE_KIM>LONDON_BREED
49:RICHIE_GREENBERG>AMY_FARAH_WEISS>ELLEN_LEE_ZHOU
168:RICHIE_GREENBERG>ANGELA_ALIOTO>ELLEN_LEE_ZHOU
1010:ANGELA_ALIOTO>LONDON_BREED>JANE_KIM
2981:LONDON_BREED>ANGELA_ALIOTO>JANE_KIM
83:ELLEN_LEE_ZHOU>RICHIE_GREENBERG>MICHELLE_BRAVO
1403:ANGELA_ALIOTO
15654:JANE_KIM>MARK_LENO>AMY_FARAH_WEISS
469:ANGELA_ALIOTO>LONDON_BREED>RICHIE_GREENBERG
61:RICHIE_GREENBERG>ANGELA_ALIOTO
72:ELLEN_LEE_ZHOU>MARK_LENO>RICHIE_GREENBERG
1145:JANE_KIM>LONDON_BREED
355:JANE_KIM>ANGELA_ALIOTO>ELLEN_LEE_ZHOU
16:ELLEN_LEE_ZHOU>ANGELA_ALIOTO
321:LONDON_BREED>ELLEN_LEE_ZHOU>RICHIE_GREENBERG
926:LONDON_BREED>ELLEN_LEE_ZHOU>ANGELA_ALIOTO
200:MARK_LENO>RICHIE_GREENBERG>LONDON_BREED
759:ANGELA_ALIOTO>JANE_KIM>MARK_LENO
227:JANE_KIM>LONDON_BREED
429:MARK_LENO>JANE_KIM
186:MARK_LENO>LONDON_BREED>MICHELLE_BRAVO
457:JANE_KIM>MARK_LENO
311:LONDON_BREED
982:MARK_LENO>JANE_KIM>ELLEN_LEE_ZHOU
1014:ANGELA_ALIOTO>MARK_LENO>JANE_KIM
33:LONDON_BREED>RICHIE_GREENBERG
28:ELLEN_LEE_ZHOU>MICHELLE_BRAVO>LONDON_BREED
7112:JANE_KIM>MARK_LENO
405:ELLEN_LEE_ZHOU>JANE_KIM>LONDON_BREED
359:MARK_LENO>ANGELA_ALIOTO>RICHIE_GREENBERG
1715:MARK_LENO>ANGELA_ALIOTO>LONDON_BREED
251:ANGELA_ALIOTO>LONDON_BREED
649:ELLEN_LEE_ZHOU
390:LONDON_BREED>ELLEN_LEE_ZHOU>JANE_KIM
169:ANGELA_ALIOTO>MARK_LENO>MICHELLE_BRAVO
834:ANGELA_ALIOTO>LONDON_BREED
172:MARK_LENO>ELLEN_LEE_ZHOU>JANE_KIM
694:LONDON_BREED>ANGELA_ALIOTO>MICHELLE_BRAVO
19:ANGELA_ALIOTO>MICHELLE_BRAVO
350:LONDON_BREED>ELLEN_LEE_ZHOU
360:ELLEN_LEE_ZHOU>LONDON_BREED>JANE_KIM
5888:LONDON_BREED>MARK_LENO
1407:JANE_KIM>MARK_LENO>ELLEN_LEE_ZHOU
287:LONDON_BREED>ELLEN_LEE_ZHOU>MICHELLE_BRAVO
298:LONDON_BREED>ANGELA_ALIOTO
1187:LONDON_BREED>ANGELA_ALIOTO>AMY_FARAH_WEISS
984:LONDON_BREED>JANE_KIM>ELLEN_LEE_ZHOU
50:ELLEN_LEE_ZHOU>AMY_FARAH_WEISS>RICHIE_GREENBERG
259:ELLEN_LEE_ZHOU>LONDON_BREED>RICHIE_GREENBERG
3856:MARK_LENO
835:LONDON_BREED>MARK_LENO>ELLEN_LEE_ZHOU
49:RICHIE_GREENBERG>MICHELLE_BRAVO>ELLEN_LEE_ZHOU
19:MICHELLE_BRAVO>ANGELA_ALIOTO>RICHIE_GREENBERG
201:RICHIE_GREENBERG>LONDON_BREED>MARK_LENO
1126:ANGELA_ALIOTO>MARK_LENO>LONDON_BREED
18:MICHELLE_BRAVO>JANE_KIM>ANGELA_ALIOTO
6906:MARK_LENO>JANE_KIM
912:JANE_KIM>ANGELA_ALIOTO>MARK_LENO
2956:LONDON_BREED>ANGELA_ALIOTO
5811:MARK_LENO>JANE_KIM>ANGELA_ALIOTO
2010:ANGELA_ALIOTO
343:MARK_LENO>LONDON_BREED>RICHIE_GREENBERG
127:MARK_LENO>AMY_FARAH_WEISS>ANGELA_ALIOTO
4514:MARK_LENO>JANE_KIM>AMY_FARAH_WEISS
189:AMY_FARAH_WEISS>MARK_LENO>JANE_KIM
302:LONDON_BREED>AMY_FARAH_WEISS>MARK_LENO
95:ELLEN_LEE_ZHOU>MARK_LENO
92:JANE_KIM>ANGELA_ALIOTO
93:RICHIE_GREENBERG>LONDON_BREED>JANE_KIM
355:ANGELA_ALIOTO>MARK_LENO>RICHIE_GREENBERG
93:MARK_LENO>ELLEN_LEE_ZHOU
334:ELLEN_LEE_ZHOU>MARK_LENO>LONDON_BREED
180:LONDON_BREED>MICHELLE_BRAVO>AMY_FARAH_WEISS
2899:MARK_LENO>LONDON_BREED
148:ANGELA_ALIOTO>JANE_KIM>ELLEN_LEE_ZHOU
1892:JANE_KIM
268:LONDON_BREED>MICHELLE_BRAVO>ELLEN_LEE_ZHOU
371:RICHIE_GREENBERG>LONDON_BREED>ANGELA_ALIOTO
311:MARK_LENO>ANGELA_ALIOTO>ELLEN_LEE_ZHOU
105:ANGELA_ALIOTO>ELLEN_LEE_ZHOU>JANE_KIM
24:ANGELA_ALIOTO>MICHELLE_BRAVO
180:ANGELA_ALIOTO>MARK_LENO>AMY_FARAH_WEISS
985:ELLEN_LEE_ZHOU
68:JANE_KIM>RICHIE_GREENBERG>LONDON_BREED
521:MARK_LENO>LONDON_BREED>ELLEN_LEE_ZHOU
953:LONDON_BREED>MARK_LENO>AMY_FARAH_WEISS
79:ANGELA_ALIOTO>LONDON_BREED
56:JANE_KIM>MICHELLE_BRAVO>ANGELA_ALIOTO
30:ELLEN_LEE_ZHOU>JANE_KIM
236:MARK_LENO>RICHIE_GREENBERG>ANGELA_ALIOTO
336:MARK_LENO>ANGELA_ALIOTO>AMY_FARAH_WEISS
770:MARK_LENO>ANGELA_ALIOTO
31:RICHIE_GREENBERG>MICHELLE_BRAVO>MARK_LENO
111:ANGELA_ALIOTO
442:ANGELA_ALIOTO>MARK_LENO
137:RICHIE_GREENBERG>MARK_LENO>JANE_KIM
97:ELLEN_LEE_ZHOU>ANGELA_ALIOTO>JANE_KIM
11:JANE_KIM>MICHELLE_BRAVO
126:RICHIE_GREENBERG>ELLEN_LEE_ZHOU
1406:LONDON_BREED>ANGELA_ALIOTO>ELLEN_LEE_ZHOU
89:JANE_KIM>ELLEN_LEE_ZHOU>MICHELLE_BRAVO
161:LONDON_BREED>AMY_FARAH_WEISS
173:MARK_LENO>RICHIE_GREENBERG>AMY_FARAH_WEISS
1490:ANGELA_ALIOTO>LONDON_BREED>MARK_LENO
197:LONDON_BREED>ANGELA_ALIOTO
290:ELLEN_LEE_ZHOU>LONDON_BREED
159:ANGELA_ALIOTO>MARK_LENO
609:RICHIE_GREENBERG
325:LONDON_BREED>AMY_FARAH_WEISS>ANGELA_ALIOTO
35:MICHELLE_BRAVO>LONDON_BREED>MARK_LENO
2440:LONDON_BREED>JANE_KIM
1315:RICHIE_GREENBERG
60:ANGELA_ALIOTO>RICHIE_GREENBERG
340:LONDON_BREED>RICHIE_GREENBERG>MARK_LENO
403:MARK_LENO>LONDON_BREED
147:ANGELA_ALIOTO>LONDON_BREED>MICHELLE_BRAVO
245:RICHIE_GREENBERG>ANGELA_ALIOTO>MARK_LENO
269:JANE_KIM>ELLEN_LEE_ZHOU>ANGELA_ALIOTO
20:JANE_KIM>MICHELLE_BRAVO>RICHIE_GREENBERG
80:JANE_KIM>ANGELA_ALIOTO>MICHELLE_BRAVO
661:JANE_KIM>LONDON_BREED>ELLEN_LEE_ZHOU
275:LONDON_BREED>JANE_KIM>RICHIE_GREENBERG
148:JANE_KIM>LONDON_BREED>RICHIE_GREENBERG
68:ELLEN_LEE_ZHOU>RICHIE_GREENBERG>JANE_KIM
259:ANGELA_ALIOTO>RICHIE_GREENBERG
10:MICHELLE_BRAVO>LONDON_BREED
558:ELLEN_LEE_ZHOU>ANGELA_ALIOTO>LONDON_BREED
53:ELLEN_LEE_ZHOU>JANE_KIM>AMY_FARAH_WEISS
1192:JANE_KIM>AMY_FARAH_WEISS>MARK_LENO
226:MARK_LENO>ELLEN_LEE_ZHOU>LONDON_BREED
278:LONDON_BREED>JANE_KIM
150:MARK_LENO>ELLEN_LEE_ZHOU>ANGELA_ALIOTO
63:RICHIE_GREENBERG>JANE_KIM>ANGELA_ALIOTO
157:LONDON_BREED>RICHIE_GREENBERG>MICHELLE_BRAVO
308:ANGELA_ALIOTO>LONDON_BREED>ELLEN_LEE_ZHOU
38:RICHIE_GREENBERG>AMY_FARAH_WEISS>MARK_LENO
63:ANGELA_ALIOTO>MICHELLE_BRAVO>LONDON_BREED
189:LONDON_BREED>MARK_LENO
218:ANGELA_ALIOTO>RICHIE_GREENBERG>AMY_FARAH_WEISS
33:RICHIE_GREENBERG>AMY_FARAH_WEISS>LONDON_BREED
18:RICHIE_GREENBERG>AMY_FARAH_WEISS>JANE_KIM
347:RICHIE_GREENBERG>ANGELA_ALIOTO
449:LONDON_BREED>MARK_LENO
19:RICHIE_GREENBERG>MICHELLE_BRAVO>JANE_KIM
136:JANE_KIM>ELLEN_LEE_ZHOU
57:ELLEN_LEE_ZHOU>LONDON_BREED>MICHELLE_BRAVO
227:ANGELA_ALIOTO>LONDON_BREED>AMY_FARAH_WEISS
63:MARK_LENO>MICHELLE_BRAVO>ELLEN_LEE_ZHOU
49:JANE_KIM>RICHIE_GREENBERG>AMY_FARAH_WEISS
217:ANGELA_ALIOTO>RICHIE_GREENBERG>MARK_LENO
1431:LONDON_BREED>ANGELA_ALIOTO>RICHIE_GREENBERG
261:LONDON_BREED>RICHIE_GREENBERG>ELLEN_LEE_ZHOU
194:ANGELA_ALIOTO>ELLEN_LEE_ZHOU>LONDON_BREED
27:MICHELLE_BRAVO>ELLEN_LEE_ZHOU>AMY_FARAH_WEISS
43:RICHIE_GREENBERG>AMY_FARAH_WEISS>ANGELA_ALIOTO
114:JANE_KIM>MARK_LENO
339:ELLEN_LEE_ZHOU>JANE_KIM>MARK_LENO
145:ANGELA_ALIOTO>AMY_FARAH_WEISS>ELLEN_LEE_ZHOU
270:ANGELA_ALIOTO>RICHIE_GREENBERG>LONDON_BREED
480:JANE_KIM>MARK_LENO>MICHELLE_BRAVO
54:MICHELLE_BRAVO
160:MARK_LENO>AMY_FARAH_WEISS>LONDON_BREED
230:LONDON_BREED>RICHIE_GREENBERG>AMY_FARAH_WEISS
171:ANGELA_ALIOTO>JANE_KIM
87:MARK_LENO>AMY_FARAH_WEISS>ELLEN_LEE_ZHOU
240:JANE_KIM>ANGELA_ALIOTO>AMY_FARAH_WEISS
37:RICHIE_GREENBERG>LONDON_BREED>AMY_FARAH_WEISS
65:RICHIE_GREENBERG>MARK_LENO>AMY_FARAH_WEISS
2618:
156:MARK_LENO>RICHIE_GREENBERG
274:ELLEN_LEE_ZHOU>MARK_LENO>JANE_KIM
96:ANGELA_ALIOTO>MICHELLE_BRAVO>ELLEN_LEE_ZHOU
20:MICHELLE_BRAVO>MARK_LENO>LONDON_BREED
93:MARK_LENO>RICHIE_GREENBERG>MICHELLE_BRAVO
355:MARK_LENO>AMY_FARAH_WEISS>JANE_KIM
28:RICHIE_GREENBERG>MICHELLE_BRAVO>ANGELA_ALIOTO
154:ANGELA_ALIOTO>MARK_LENO>ELLEN_LEE_ZHOU
87:ANGELA_ALIOTO>ELLEN_LEE_ZHOU
703:LONDON_BREED>RICHIE_GREENBERG>ANGELA_ALIOTO
879:JANE_KIM>ANGELA_ALIOTO>LONDON_BREED
496:MARK_LENO>JANE_KIM>MICHELLE_BRAVO
126:JANE_KIM>ELLEN_LEE_ZHOU>AMY_FARAH_WEISS
85:ANGELA_ALIOTO>MICHELLE_BRAVO>AMY_FARAH_WEISS
91:ANGELA_ALIOTO>AMY_FARAH_WEISS>LONDON_BREED
119:ANGELA_ALIOTO>ELLEN_LEE_ZHOU>MARK_LENO
104:LONDON_BREED>MICHELLE_BRAVO>JANE_KIM
68:ANGELA_ALIOTO>MICHELLE_BRAVO>MARK_LENO
69:MARK_LENO>MICHELLE_BRAVO>ANGELA_ALIOTO
382:LONDON_BREED>MARK_LENO>MICHELLE_BRAVO
133:RICHIE_GREENBERG>MARK_LENO
6:MARK_LENO>MICHELLE_BRAVO
36:MICHELLE_BRAVO>ANGELA_ALIOTO>MARK_LENO
106:MARK_LENO>ELLEN_LEE_ZHOU>RICHIE_GREENBERG
480:LONDON_BREED>ELLEN_LEE_ZHOU>MARK_LENO
116:LONDON_BREED>JANE_KIM
68:RICHIE_GREENBERG>MARK_LENO>ELLEN_LEE_ZHOU
82:MARK_LENO>AMY_FARAH_WEISS>RICHIE_GREENBERG
136:LONDON_BREED>RICHIE_GREENBERG>JANE_KIM
23:JANE_KIM>ELLEN_LEE_ZHOU
182:ELLEN_LEE_ZHOU>JANE_KIM>ANGELA_ALIOTO
399:AMY_FARAH_WEISS>JANE_KIM>MARK_LENO
64:JANE_KIM>MICHELLE_BRAVO>ELLEN_LEE_ZHOU
31:ELLEN_LEE_ZHOU>ANGELA_ALIOTO
35:ELLEN_LEE_ZHOU>MICHELLE_BRAVO>ANGELA_ALIOTO
732:ELLEN_LEE_ZHOU>LONDON_BREED>ANGELA_ALIOTO
93:ANGELA_ALIOTO>AMY_FARAH_WEISS>MICHELLE_BRAVO
46:JANE_KIM>MICHELLE_BRAVO>LONDON_BREED
28:AMY_FARAH_WEISS>LONDON_BREED>ANGELA_ALIOTO
25:MICHELLE_BRAVO>ELLEN_LEE_ZHOU>ANGELA_ALIOTO
140:MARK_LENO>JANE_KIM
207:LONDON_BREED>MICHELLE_BRAVO>ANGELA_ALIOTO
39:JANE_KIM>MICHELLE_BRAVO>MARK_LENO
82:AMY_FARAH_WEISS>JANE_KIM>LONDON_BREED
98:MARK_LENO>RICHIE_GREENBERG>ELLEN_LEE_ZHOU
343:LONDON_BREED>ELLEN_LEE_ZHOU>AMY_FARAH_WEISS
81:ANGELA_ALIOTO>MICHELLE_BRAVO>RICHIE_GREENBERG
18:ANGELA_ALIOTO>ELLEN_LEE_ZHOU
14:ELLEN_LEE_ZHOU>RICHIE_GREENBERG
45:MARK_LENO>MICHELLE_BRAVO>LONDON_BREED
78:ELLEN_LEE_ZHOU>RICHIE_GREENBERG>MARK_LENO
80:RICHIE_GREENBERG>JANE_KIM>LONDON_BREED
748:LONDON_BREED>JANE_KIM>AMY_FARAH_WEISS
11:ANGELA_ALIOTO>AMY_FARAH_WEISS
42:MARK_LENO>MICHELLE_BRAVO>JANE_KIM
121:ANGELA_ALIOTO>ELLEN_LEE_ZHOU>MICHELLE_BRAVO
99:RICHIE_GREENBERG>ANGELA_ALIOTO>AMY_FARAH_WEISS
29:ANGELA_ALIOTO>JANE_KIM
177:ANGELA_ALIOTO>RICHIE_GREENBERG>ELLEN_LEE_ZHOU
22:MARK_LENO>RICHIE_GREENBERG
49:RICHIE_GREENBERG>JANE_KIM
151:RICHIE_GREENBERG>ELLEN_LEE_ZHOU>ANGELA_ALIOTO
316:LONDON_BREED>AMY_FARAH_WEISS>ELLEN_LEE_ZHOU
203:RICHIE_GREENBERG>MARK_LENO>LONDON_BREED
244:JANE_KIM>ANGELA_ALIOTO
51:MARK_LENO>MICHELLE_BRAVO>RICHIE_GREENBERG
8:JANE_KIM>MICHELLE_BRAVO
103:ANGELA_ALIOTO>JANE_KIM>RICHIE_GREENBERG
63:RICHIE_GREENBERG>MARK_LENO>MICHELLE_BRAVO
65:ELLEN_LEE_ZHOU>LONDON_BREED
208:RICHIE_GREENBERG>LONDON_BREED
125:ANGELA_ALIOTO>ELLEN_LEE_ZHOU>AMY_FARAH_WEISS
104:JANE_KIM
58:ANGELA_ALIOTO>MARK_LENO
19:AMY_FARAH_WEISS>MARK_LENO
134:ANGELA_ALIOTO>RICHIE_GREENBERG>MICHELLE_BRAVO
5:RICHIE_GREENBERG>AMY_FARAH_WEISS
432:RICHIE_GREENBERG>ANGELA_ALIOTO>LONDON_BREED
95:RICHIE_GREENBERG>ANGELA_ALIOTO>MICHELLE_BRAVO
158:ANGELA_ALIOTO>ELLEN_LEE_ZHOU>RICHIE_GREENBERG
80:MICHELLE_BRAVO
20:ANGELA_ALIOTO>RICHIE_GREENBERG
99:JANE_KIM>AMY_FARAH_WEISS>ELLEN_LEE_ZHOU
90:ANGELA_ALIOTO>RICHIE_GREENBERG>JANE_KIM
77:RICHIE_GREENBERG>ELLEN_LEE_ZHOU>MARK_LENO
354:LONDON_BREED>RICHIE_GREENBERG
94:ANGELA_ALIOTO>AMY_FARAH_WEISS>RICHIE_GREENBERG
93:RICHIE_GREENBERG>LONDON_BREED>ELLEN_LEE_ZHOU
1:AMY_FARAH_WEISS>ELLEN_LEE_ZHOU
123:ELLEN_LEE_ZHOU>RICHIE_GREENBERG
12:ELLEN_LEE_ZHOU>AMY_FARAH_WEISS
10:AMY_FARAH_WEISS>ELLEN_LEE_ZHOU>MARK_LENO
30:ELLEN_LEE_ZHOU>AMY_FARAH_WEISS>LONDON_BREED
197:LONDON_BREED>AMY_FARAH_WEISS>MICHELLE_BRAVO
17:JANE_KIM>RICHIE_GREENBERG>MICHELLE_BRAVO
187:JANE_KIM>AMY_FARAH_WEISS>LONDON_BREED
217:LONDON_BREED>AMY_FARAH_WEISS>JANE_KIM
141:MARK_LENO>LONDON_BREED
126:RICHIE_GREENBERG>ANGELA_ALIOTO>JANE_KIM
172:RICHIE_GREENBERG>MARK_LENO>ANGELA_ALIOTO
52:ELLEN_LEE_ZHOU>JANE_KIM>MICHELLE_BRAVO
38:JANE_KIM>RICHIE_GREENBERG>ELLEN_LEE_ZHOU
76:ELLEN_LEE_ZHOU>ANGELA_ALIOTO>MICHELLE_BRAVO
66:ANGELA_ALIOTO>JANE_KIM
18:MARK_LENO>ELLEN_LEE_ZHOU
82:ANGELA_ALIOTO>AMY_FARAH_WEISS>JANE_KIM
292:LONDON_BREED>JANE_KIM>MICHELLE_BRAVO
215:LONDON_BREED>AMY_FARAH_WEISS>RICHIE_GREENBERG
483:MARK_LENO>LONDON_BREED>AMY_FARAH_WEISS
109:LONDON_BREED>MICHELLE_BRAVO>RICHIE_GREENBERG
209:ELLEN_LEE_ZHOU>RICHIE_GREENBERG>LONDON_BREED
81:MARK_LENO>AMY_FARAH_WEISS>MICHELLE_BRAVO
134:JANE_KIM>AMY_FARAH_WEISS>ANGELA_ALIOTO
56:ELLEN_LEE_ZHOU>MICHELLE_BRAVO>AMY_FARAH_WEISS
18:AMY_FARAH_WEISS>RICHIE_GREENBERG>MARK_LENO
20:AMY_FARAH_WEISS>ANGELA_ALIOTO>MICHELLE_BRAVO
10:MICHELLE_BRAVO>JANE_KIM>ELLEN_LEE_ZHOU
59:ELLEN_LEE_ZHOU
47:JANE_KIM>RICHIE_GREENBERG>ANGELA_ALIOTO
60:RICHIE_GREENBERG>ELLEN_LEE_ZHOU>JANE_KIM
95:RICHIE_GREENBERG>JANE_KIM>MARK_LENO
70:JANE_KIM>AMY_FARAH_WEISS
18:MICHELLE_BRAVO>MARK_LENO>ANGELA_ALIOTO
101:LONDON_BREED>MICHELLE_BRAVO>MARK_LENO
27:LONDON_BREED>AMY_FARAH_WEISS
95:RICHIE_GREENBERG>ELLEN_LEE_ZHOU>LONDON_BREED
54:AMY_FARAH_WEISS
70:MARK_LENO>ANGELA_ALIOTO
14:MICHELLE_BRAVO>RICHIE_GREENBERG>MARK_LENO
152:MARK_LENO>RICHIE_GREENBERG>JANE_KIM
35:RICHIE_GREENBERG>LONDON_BREED
5:AMY_FARAH_WEISS>ELLEN_LEE_ZHOU
27:ANGELA_ALIOTO>ELLEN_LEE_ZHOU
26:MICHELLE_BRAVO>ANGELA_ALIOTO>LONDON_BREED
164:JANE_KIM>LONDON_BREED>MICHELLE_BRAVO
68:AMY_FARAH_WEISS>LONDON_BREED>MARK_LENO
75:ANGELA_ALIOTO>JANE_KIM>MICHELLE_BRAVO
5:RICHIE_GREENBERG>MICHELLE_BRAVO
41:RICHIE_GREENBERG>MICHELLE_BRAVO>AMY_FARAH_WEISS
29:AMY_FARAH_WEISS>ANGELA_ALIOTO>LONDON_BREED
106:ELLEN_LEE_ZHOU>ANGELA_ALIOTO>AMY_FARAH_WEISS
154:MARK_LENO
58:RICHIE_GREENBERG>ELLEN_LEE_ZHOU>MICHELLE_BRAVO
137:ANGELA_ALIOTO>JANE_KIM>AMY_FARAH_WEISS
14:MICHELLE_BRAVO>AMY_FARAH_WEISS>ELLEN_LEE_ZHOU
15:MICHELLE_BRAVO>AMY_FARAH_WEISS>RICHIE_GREENBERG
53:ANGELA_ALIOTO>MICHELLE_BRAVO>JANE_KIM
5:AMY_FARAH_WEISS>MICHELLE_BRAVO
34:ELLEN_LEE_ZHOU>MARK_LENO>MICHELLE_BRAVO
19:LONDON_BREED>MICHELLE_BRAVO
87:ELLEN_LEE_ZHOU>JANE_KIM
62:JANE_KIM>ELLEN_LEE_ZHOU>RICHIE_GREENBERG
10:MICHELLE_BRAVO>MARK_LENO>ELLEN_LEE_ZHOU
88:MARK_LENO>AMY_FARAH_WEISS
25:MICHELLE_BRAVO>ANGELA_ALIOTO>JANE_KIM
29:ANGELA_ALIOTO>MICHELLE_BRAVO
37:ELLEN_LEE_ZHOU>MARK_LENO>AMY_FARAH_WEISS
32:JANE_KIM>MICHELLE_BRAVO>AMY_FARAH_WEISS
13:MICHELLE_BRAVO>LONDON_BREED
61:ELLEN_LEE_ZHOU>AMY_FARAH_WEISS>ANGELA_ALIOTO
8:MICHELLE_BRAVO>ELLEN_LEE_ZHOU
57:AMY_FARAH_WEISS>MARK_LENO>LONDON_BREED
46:RICHIE_GREENBERG>AMY_FARAH_WEISS>MICHELLE_BRAVO
14:AMY_FARAH_WEISS>ANGELA_ALIOTO
23:AMY_FARAH_WEISS>RICHIE_GREENBERG>ELLEN_LEE_ZHOU
29:RICHIE_GREENBERG>JANE_KIM>ELLEN_LEE_ZHOU
13:MICHELLE_BRAVO>ANGELA_ALIOTO
27:MICHELLE_BRAVO>LONDON_BREED>ANGELA_ALIOTO
81:MARK_LENO>ELLEN_LEE_ZHOU>AMY_FARAH_WEISS
51:ANGELA_ALIOTO>AMY_FARAH_WEISS>MARK_LENO
62:JANE_KIM>RICHIE_GREENBERG>MARK_LENO
49:JANE_KIM>ELLEN_LEE_ZHOU
7:MICHELLE_BRAVO>JANE_KIM>AMY_FARAH_WEISS
21:ELLEN_LEE_ZHOU>AMY_FARAH_WEISS>JANE_KIM
21:MICHELLE_BRAVO>LONDON_BREED>JANE_KIM
24:RICHIE_GREENBERG>MARK_LENO
45:RICHIE_GREENBERG>LONDON_BREED>MICHELLE_BRAVO
34:RICHIE_GREENBERG>MICHELLE_BRAVO
71:AMY_FARAH_WEISS
20:RICHIE_GREENBERG>AMY_FARAH_WEISS
14:AMY_FARAH_WEISS>LONDON_BREED>ELLEN_LEE_ZHOU
17:ELLEN_LEE_ZHOU>MICHELLE_BRAVO>MARK_LENO
89:ELLEN_LEE_ZHOU>RICHIE_GREENBERG>AMY_FARAH_WEISS
14:MICHELLE_BRAVO>RICHIE_GREENBERG>ELLEN_LEE_ZHOU
4:RICHIE_GREENBERG>JANE_KIM
67:LONDON_BREED>ELLEN_LEE_ZHOU
22:LONDON_BREED>AMY_FARAH_WEISS
57:ELLEN_LEE_ZHOU>JANE_KIM>RICHIE_GREENBERG
8:ANGELA_ALIOTO>AMY_FARAH_WEISS
15:MARK_LENO>RICHIE_GREENBERG
31:AMY_FARAH_WEISS>ANGELA_ALIOTO>JANE_KIM
24:ELLEN_LEE_ZHOU>MARK_LENO
38:AMY_FARAH_WEISS>ANGELA_ALIOTO>ELLEN_LEE_ZHOU
56:JANE_KIM>AMY_FARAH_WEISS>MICHELLE_BRAVO
8:MICHELLE_BRAVO>LONDON_BREED>AMY_FARAH_WEISS
15:RICHIE_GREENBERG>JANE_KIM
30:ANGELA_ALIOTO>AMY_FARAH_WEISS
138:ELLEN_LEE_ZHOU>ANGELA_ALIOTO
68:MARK_LENO>ELLEN_LEE_ZHOU>MICHELLE_BRAVO
32:RICHIE_GREENBERG>ANGELA_ALIOTO
21:MARK_LENO>ELLEN_LEE_ZHOU
14:MARK_LENO>MICHELLE_BRAVO
27:MICHELLE_BRAVO>MARK_LENO>JANE_KIM
11:MICHELLE_BRAVO>ELLEN_LEE_ZHOU>RICHIE_GREENBERG
27:RICHIE_GREENBERG>JANE_KIM>AMY_FARAH_WEISS
22:MICHELLE_BRAVO>JANE_KIM>MARK_LENO
8:AMY_FARAH_WEISS>MICHELLE_BRAVO>RICHIE_GREENBERG
27:AMY_FARAH_WEISS>MARK_LENO>ANGELA_ALIOTO
10:AMY_FARAH_WEISS>RICHIE_GREENBERG>MICHELLE_BRAVO
14:AMY_FARAH_WEISS>RICHIE_GREENBERG>ANGELA_ALIOTO
5:MICHELLE_BRAVO>AMY_FARAH_WEISS
8:AMY_FARAH_WEISS>MICHELLE_BRAVO>LONDON_BREED
3:AMY_FARAH_WEISS>RICHIE_GREENBERG
30:LONDON_BREED>RICHIE_GREENBERG
60:JANE_KIM>LONDON_BREED
34:ELLEN_LEE_ZHOU>LONDON_BREED
7:MICHELLE_BRAVO>RICHIE_GREENBERG>AMY_FARAH_WEISS
3:AMY_FARAH_WEISS>JANE_KIM>RICHIE_GREENBERG
13:AMY_FARAH_WEISS>MICHELLE_BRAVO>JANE_KIM
28:AMY_FARAH_WEISS>ELLEN_LEE_ZHOU>MICHELLE_BRAVO
15:RICHIE_GREENBERG>LONDON_BREED
10:AMY_FARAH_WEISS>ELLEN_LEE_ZHOU>JANE_KIM
9:MICHELLE_BRAVO>ELLEN_LEE_ZHOU>JANE_KIM
8:MICHELLE_BRAVO>AMY_FARAH_WEISS>ANGELA_ALIOTO
11:JANE_KIM>RICHIE_GREENBERG
76:LONDON_BREED>ELLEN_LEE_ZHOU
15:AMY_FARAH_WEISS>ANGELA_ALIOTO>RICHIE_GREENBERG
11:RICHIE_GREENBERG>MARK_LENO
27:AMY_FARAH_WEISS>ANGELA_ALIOTO>MARK_LENO
8:AMY_FARAH_WEISS>ANGELA_ALIOTO
5:MICHELLE_BRAVO>RICHIE_GREENBERG
7:MICHELLE_BRAVO>MARK_LENO
24:RICHIE_GREENBERG
26:ELLEN_LEE_ZHOU>AMY_FARAH_WEISS>MARK_LENO
55:LONDON_BREED>MICHELLE_BRAVO
20:ELLEN_LEE_ZHOU>MICHELLE_BRAVO>RICHIE_GREENBERG
24:AMY_FARAH_WEISS>ELLEN_LEE_ZHOU>ANGELA_ALIOTO
17:AMY_FARAH_WEISS>ELLEN_LEE_ZHOU>RICHIE_GREENBERG
70:RICHIE_GREENBERG>ELLEN_LEE_ZHOU>AMY_FARAH_WEISS
4:RICHIE_GREENBERG>AMY_FARAH_WEISS
7:AMY_FARAH_WEISS>LONDON_BREED
17:AMY_FARAH_WEISS>MICHELLE_BRAVO>MARK_LENO
48:ELLEN_LEE_ZHOU>AMY_FARAH_WEISS>MICHELLE_BRAVO
13:AMY_FARAH_WEISS>RICHIE_GREENBERG
6:MICHELLE_BRAVO>ELLEN_LEE_ZHOU
10:AMY_FARAH_WEISS>JANE_KIM>MICHELLE_BRAVO
14:RICHIE_GREENBERG>JANE_KIM>MICHELLE_BRAVO
12:AMY_FARAH_WEISS>ELLEN_LEE_ZHOU>LONDON_BREED
27:LONDON_BREED>MICHELLE_BRAVO
30:MICHELLE_BRAVO>ANGELA_ALIOTO>ELLEN_LEE_ZHOU
29:ELLEN_LEE_ZHOU>RICHIE_GREENBERG
7:MICHELLE_BRAVO>LONDON_BREED>ELLEN_LEE_ZHOU
12:MICHELLE_BRAVO>RICHIE_GREENBERG>LONDON_BREED
8:MICHELLE_BRAVO>JANE_KIM
5:AMY_FARAH_WEISS>MARK_LENO
18:JANE_KIM>AMY_FARAH_WEISS
19:AMY_FARAH_WEISS>MARK_LENO>RICHIE_GREENBERG
7:AMY_FARAH_WEISS
4:MICHELLE_BRAVO>RICHIE_GREENBERG>JANE_KIM
11:RICHIE_GREENBERG>ELLEN_LEE_ZHOU
19:MICHELLE_BRAVO>ANGELA_ALIOTO>AMY_FARAH_WEISS
9:MICHELLE_BRAVO>MARK_LENO
10:ELLEN_LEE_ZHOU>MARK_LENO
16:MICHELLE_BRAVO>JANE_KIM>LONDON_BREED
2:AMY_FARAH_WEISS>JANE_KIM
17:RICHIE_GREENBERG>MICHELLE_BRAVO>LONDON_BREED
13:ELLEN_LEE_ZHOU>MICHELLE_BRAVO
31:JANE_KIM>ANGELA_ALIOTO
9:MICHELLE_BRAVO>ANGELA_ALIOTO
7:JANE_KIM>MICHELLE_BRAVO
20:AMY_FARAH_WEISS>JANE_KIM>ELLEN_LEE_ZHOU
7:MICHELLE_BRAVO>LONDON_BREED>RICHIE_GREENBERG
6:MICHELLE_BRAVO>MARK_LENO
46:AMY_FARAH_WEISS>LONDON_BREED>JANE_KIM
6:AMY_FARAH_WEISS>RICHIE_GREENBERG>JANE_KIM
16:MARK_LENO>AMY_FARAH_WEISS
10:AMY_FARAH_WEISS>RICHIE_GREENBERG>LONDON_BREED
16:ELLEN_LEE_ZHOU>JANE_KIM
20:AMY_FARAH_WEISS>JANE_KIM
10:MICHELLE_BRAVO>ANGELA_ALIOTO
17:JANE_KIM>RICHIE_GREENBERG
5:AMY_FARAH_WEISS>MARK_LENO>MICHELLE_BRAVO
3:AMY_FARAH_WEISS>MICHELLE_BRAVO
18:JANE_KIM>AMY_FARAH_WEISS>RICHIE_GREENBERG
8:MICHELLE_BRAVO>MARK_LENO>AMY_FARAH_WEISS
11:MICHELLE_BRAVO>ELLEN_LEE_ZHOU>MARK_LENO
4:MICHELLE_BRAVO>AMY_FARAH_WEISS>LONDON_BREED
18:MICHELLE_BRAVO>MARK_LENO>RICHIE_GREENBERG
8:AMY_FARAH_WEISS>LONDON_BREED>MICHELLE_BRAVO
26:MARK_LENO>AMY_FARAH_WEISS
18:MICHELLE_BRAVO>RICHIE_GREENBERG>ANGELA_ALIOTO
15:ELLEN_LEE_ZHOU>MICHELLE_BRAVO
21:AMY_FARAH_WEISS>MICHELLE_BRAVO>ELLEN_LEE_ZHOU
2:MICHELLE_BRAVO>RICHIE_GREENBERG
6:MICHELLE_BRAVO>JANE_KIM
4:MICHELLE_BRAVO>ELLEN_LEE_ZHOU
7:AMY_FARAH_WEISS>MARK_LENO>ELLEN_LEE_ZHOU
34:AMY_FARAH_WEISS>JANE_KIM>ANGELA_ALIOTO
9:MICHELLE_BRAVO>ELLEN_LEE_ZHOU>LONDON_BREED
2:AMY_FARAH_WEISS>ANGELA_ALIOTO
3:RICHIE_GREENBERG>MICHELLE_BRAVO
1:AMY_FARAH_WEISS>ELLEN_LEE_ZHOU
2:MICHELLE_BRAVO>AMY_FARAH_WEISS
1:AMY_FARAH_WEISS>RICHIE_GREENBERG
7:MICHELLE_BRAVO>AMY_FARAH_WEISS>JANE_KIM
9:AMY_FARAH_WEISS>MICHELLE_BRAVO>ANGELA_ALIOTO
9:MARK_LENO>MICHELLE_BRAVO
6:ELLEN_LEE_ZHOU>AMY_FARAH_WEISS
5:MICHELLE_BRAVO>JANE_KIM>RICHIE_GREENBERG
3:JANE_KIM>RICHIE_GREENBERG
7:AMY_FARAH_WEISS>JANE_KIM
7:AMY_FARAH_WEISS>LONDON_BREED>RICHIE_GREENBERG
3:AMY_FARAH_WEISS>MICHELLE_BRAVO
6:MICHELLE_BRAVO>AMY_FARAH_WEISS>MARK_LENO
11:AMY_FARAH_WEISS>LONDON_BREED
3:ELLEN_LEE_ZHOU>AMY_FARAH_WEISS
6:MICHELLE_BRAVO
3:MICHELLE_BRAVO>LONDON_BREED
2:AMY_FARAH_WEISS>LONDON_BREED
1:AMY_FARAH_WEISS>MARK_LENO
1:MICHELLE_BRAVO>AMY_FARAH_WEISS
4:MICHELLE_BRAVO>RICHIE_GREENBERG
8:JANE_KIM>AMY_FARAH_WEISS
2:MICHELLE_BRAVO>JANE_KIM
1:ELLEN_LEE_ZHOU>MICHELLE_BRAVO
2:wi_ANTOINE_R_ROGERS>LONDON_BREED>ANGELA_ALIOTO
1:wi_ANTOINE_R_ROGERS>LONDON_BREED>MICHELLE_BRAVO
4:LONDON_BREED>MARK_LENO>wi_ANTOINE_R_ROGERS
1:JANE_KIM>MARK_LENO>wi_ANTOINE_R_ROGERS
1:RICHIE_GREENBERG>wi_ANTOINE_R_ROGERS
1:LONDON_BREED>wi_ANTOINE_R_ROGERS>ELLEN_LEE_ZHOU
2:LONDON_BREED>wi_ANTOINE_R_ROGERS
2:LONDON_BREED>wi_ANTOINE_R_ROGERS>ANGELA_ALIOTO
3:MARK_LENO>JANE_KIM>wi_ANTOINE_R_ROGERS
".
(** /repo/testdata/mock-elections/mock-twotie.abif *)
Definition file_11 : str := u "# Case 19 - RCV/IRV tiebreaker with only two ties
#
# This test file is a second demonstration of RCV/IRV's tiebreaking
# butterfly effect, where this one just shows two ties rather than a
# long string of ties.  This still results in ripple effects in later
# rounds.

2:A>B>C>D>E>F>G>H
12:B>C>D>E>F>G>H
102:C>D>E>F>G>H
1001:D>E>F>G>H
10001:E>F>G>H
100001:F>G>H
1000002:G>H
10000001:H
10000002:S
1000001:T>S
100002:U>T>S
10002:V>U>T>S
1002:W>V>U>T>S
101:X>W>V>U>T>S
11:Y>X>W>V>U>T>S
1:Z>Y>X>W>V>U>T>S
".
(** /repo/testdata/commasep/commasquare.abif *)
Definition file_12 : str := u "5:[A,X]>[B,Y]>[C,Z]
4:[A,X]>[B,Y]
3:[A,X]
".
(** /repo/testdata/widjexample/widjexample.jabmod *)
Definition file_13 : str := u "{
    ""metadata"": {
        ""ballotcount"": 900,
        ""version"": ""0.1"",
        ""description"": ""Generic election to parse with electowidget"",
        ""display_parameters"": ""true"",
        ""display_results"": ""true"",
        ""display_ballots"": ""true"",
        ""allow_voting"": ""false"",
        ""ballot_type"": ""null"",
        ""max_rating"": ""6"",
        ""min_rating"": ""0"",
        ""count_subpage_ballots"": ""false"",
        ""count_inline_ballots"": ""true""
    },
    ""candidates"": {
        ""candA"": ""Candidate A"",
        ""candB"": ""Candidate B"",
        ""candC"": ""Candidate C""
    },
    ""votelines"": [
        {
            ""qty"": 400,
            ""prefs"": {
                ""candA"": {
                    ""rating"": ""6""
                }
            },
            ""comment"": null,
            ""orderedlist"": false
        },
        {
            ""qty"": 300,
            ""prefs"": {
                ""candB"": {
                    ""rating"": ""6"",
                    ""nextdelim"": "">"",
                    ""rank"": 1
                },
                ""candC"": {
                    ""rating"": ""5""
                }
            },
            ""comment"": null,
            ""orderedlist"": true
        },
        {
            ""qty"": 200,
            ""prefs"": {
                ""candC"": {
                    ""rating"": ""6""
                }
            },
            ""comment"": null,
            ""orderedlist"": false
        }
    ]
}
".
(** /repo/testdata/bolson-nameq/letters.nameq *)
Definition file_14 : str := u "AAAA+AAA=1&BBBB+BBB=2&CCCC+CCC=3
AAAA+AAA=1&DDDD+DDD=2&EEEE+EEE=3
AAAA+AAA=1&FFFF+FFF=2&DDDD+DDD=3
AAAA+AAA=1&FFFF+FFF=2&DDDD+DDD=3
FFFF+FFF=1&AAAA+AAA=2&CCCC+CCC=3
CCCC+CCC=1&FFFF+FFF=2&DDDD+DDD=3
CCCC+CCC=1&FFFF+FFF=2&AAAA+AAA=3
CCCC+CCC=1&DDDD+DDD=2&GGGG+GGG=3
FFFF+FFF=1&DDDD+DDD=2&CCCC+CCC=3
BBBB+BBB=1&GGGG+GGG=2&AAAA+AAA=3
".
(** /repo/testdata/bolson-nameq/tennessee-example-simple.nameq *)
Definition file_15 : str := u "Memph=1&Nash=2&Chat=3&Knox=4
Memph=1&Nash=2&Chat=3&Knox=4
Memph=1&Nash=2&Chat=3&Knox=4
Memph=1&Nash=2&Chat=3&Knox=4
Memph=1&Nash=2&Chat=3&Knox=4
Memph=1&Nash=2&Chat=3&Knox=4
Memph=1&Nash=2&Chat=3&Knox=4
Memph=1&Nash=2&Chat=3&Knox=4
Memph=1&Nash=2&Chat=3&Knox=4
Memph=1&Nash=2&Chat=3&Knox=4
Memph=1&Nash=2&Chat=3&Knox=4
Memph=1&Nash=2&Chat=3&Knox=4
Memph=1&Nash=2&Chat=3&Knox=4
Memph=1&Nash=2&Chat=3&Knox=4
Memph=1&Nash=2&Chat=3&Knox=4
Memph=1&Nash=2&Chat=3&Knox=4
Memph=1&Nash=2&Chat=3&Knox=4
Memph=1&Nash=2&Chat=3&Knox=4
Memph=1&Nash=2&Chat=3&Knox=4
Memph=1&Nash=2&Chat=3&Knox=4
Memph=1&Nash=2&Chat=3&Knox=4
Memph=1&Nash=2&Chat=3&Knox=4
Memph=1&Nash=2&Chat=3&Knox=4
Memph=1&Nash=2&Chat=3&Knox=4
Memph=1&Nash=2&Chat=3&Knox=4
Memph=1&Nash=2&Chat=3&Knox=4
Memph=1&Nash=2&Chat=3&Knox=4
Memph=1&Nash=2&Chat=3&Knox=4
Memph=1&Nash=2&Chat=3&Knox=4
Memph=1&Nash=2&Chat=3&Knox=4
Memph=1&Nash=2&Chat=3&Knox=4
Memph=1&Nash=2&Chat=3&Knox=4
Memph=1&Nash=2&Chat=3&Knox=4
Memph=1&Nash=2&Chat=3&Knox=4
Memph=1&Nash=2&Chat=3&Knox=4
Memph=1&Nash=2&Chat=3&Knox=4
Memph=1&Nash=2&Chat=3&Knox=4
Memph=1&Nash=2&Chat=3&Knox=4
Memph=1&Nash=2&Chat=3&Knox=4
Memph=1&Nash=2&Chat=3&Knox=4
Memph=1&Nash=2&Chat=3&Knox=4
Memph=1&Nash=2&Chat=3&Knox=4
Nash=1&Chat=2&Knox=3&Memph=4
Nash=1&Chat=2&Knox=3&Memph=4
Nash=1&Chat=2&Knox=3&Memph=4
Nash=1&Chat=2&Knox=3&Memph=4
Nash=1&Chat=2&Knox=3&Memph=4
Nash=1&Chat=2&Knox=3&Memph=4
Nash=1&Chat=2&Knox=3&Memph=4
Nash=1&Chat=2&Knox=3&Memph=4
Nash=1&Chat=2&Knox=3&Memph=4
Nash=1&Chat=2&Knox=3&Memph=4
Nash=1&Chat=2&Knox=3&Memph=4
Nash=1&Chat=2&Knox=3&Memph=4
Nash=1&Chat=2&Knox=3&Memph=4
Nash=1&Chat=2&Knox=3&Memph=4
Nash=1&Chat=2&Knox=3&Memph=4
Nash=1&Chat=2&Knox=3&Memph=4
Nash=1&Chat=2&Knox=3&Memph=4
Nash=1&Chat=2&Knox=3&Memph=4
Nash=1&Chat=2&Knox=3&Memph=4
Nash=1&Chat=2&Knox=3&Memph=4
Nash=1&Chat=2&Knox=3&Memph=4
Nash=1&Chat=2&Knox=3&Memph=4
Nash=1&Chat=2&Knox=3&Memph=4
Nash=1&Chat=2&Knox=3&Memph=4
Nash=1&Chat=2&Knox=3&Memph=4
Nash=1&Chat=2&Knox=3&Memph=4
Chat=1&Knox=2&Nash=3&Memph=4
Chat=1&Knox=2&Nash=3&Memph=4
Chat=1&Knox=2&Nash=3&Memph=4
Chat=1&Knox=2&Nash=3&Memph=4
Chat=1&Knox=2&Nash=3&Memph=4
Chat=1&Knox=2&Nash=3&Memph=4
Chat=1&Knox=2&Nash=3&Memph=4
Chat=1&Knox=2&Nash=3&Memph=4
Chat=1&Knox=2&Nash=3&Memph=4
Chat=1&Knox=2&Nash=3&Memph=4
Chat=1&Knox=2&Nash=3&Memph=4
Chat=1&Knox=2&Nash=3&Memph=4
Chat=1&Knox=2&Nash=3&Memph=4
Chat=1&Knox=2&Nash=3&Memph=4
Chat=1&Knox=2&Nash=3&Memph=4
Knox=1&Chat=2&Nash=3&Memph=4
Knox=1&Chat=2&Nash=3&Memph=4
Knox=1&Chat=2&Nash=3&Memph=4
Knox=1&Chat=2&Nash=3&Memph=4
Knox=1&Chat=2&Nash=3&Memph=4
Knox=1&Chat=2&Nash=3&Memph=4
Knox=1&Chat=2&Nash=3&Memph=4
Knox=1&Chat=2&Nash=3&Memph=4
Knox=1&Chat=2&Nash=3&Memph=4
Knox=1&Chat=2&Nash=3&Memph=4
Knox=1&Chat=2&Nash=3&Memph=4
Knox=1&Chat=2&Nash=3&Memph=4
Knox=1&Chat=2&Nash=3&Memph=4
Knox=1&Chat=2&Nash=3&Memph=4
Knox=1&Chat=2&Nash=3&Memph=4
Knox=1&Chat=2&Nash=3&Memph=4
Knox=1&Chat=2&Nash=3&Memph=4
".
(** /repo/testdata/questionable/empty.abif *)
Definition file_16 : str := [].
(** /repo/testdata/questionable/novotelines-tenn.abif *)
Definition file_17 : str := u "# An otherwise valid ABIF file with no votelines
=Memph:[Memphis, TN]
=Nash:[Nashville, TN]
=Chat:[Chattanooga, TN]
=Knox:[Knoxville, TN]
".
(** /repo/testdata/questionable/leadingspace-tenn.abif *)
Definition file_18 : str := u "  42:Memph>Nash>Chat>Knox
  26:Nash>Chat>Knox>Memph
  15:Chat>Knox>Nash>Memph
  17:Knox>Chat>Nash>Memph
".
(** /repo/testdata/commasep/tn-example-missing-scores.abif *)
Definition file_19 : str := u "{""title"": ""Comma-based TN capitol example""}
{""description"": ""Strictly score-based version of Tennessee example, with scores taken out for last-place candidates on a ballot set.""}
# See https://electowiki.org/wiki/Tennessee_example for illustrations
=Memph:[Memphis, TN]
=Nash:[Nashville, TN]
=Chat:[Chattanooga, TN]
=Knox:[Knoxville, TN]
# -------------------------
# Ratings are 400 miles minus crow-flying mileage to city 
42:Memph/400,Nash/200,Chat/133,Knox
26:Memph,Nash/400,Chat/290,Knox/240
15:Memph,Nash/290,Chat/400,Knox/296
17:Memph,Nash/240,Chat/296,Knox/400
".
Definition repo_files : list (str * str) := [(u "testdata/mock-elections/tennessee-example-scores.abif", file_00); (u "testdata/mock-elections/tennessee-example-STAR.abif", file_01); (u "testdata/mock-elections/tennessee-example-STAR-score-difference.abif", file_02); (u "testdata/commasep/tn-example-scores-and-commas.abif", file_03); (u "testdata/burl2009/burl2009.abif", file_04); (u "testdata/commasep/jman722-example.abif", file_05); (u "testdata/mock-elections/tennessee-example-overvote-02.abif", file_06); (u "testdata/mock-elections/tennessee-example-irv-tie.abif", file_07); (u "testdata/mock-elections/tennessee-example-simple.abif", file_08); (u "testdata/california/simple001-example.jabmod.json", file_09); (u "testdata/california/sf2018special-results.abif", file_10); (u "testdata/mock-elections/mock-twotie.abif", file_11); (u "testdata/commasep/commasquare.abif", file_12); (u "testdata/widjexample/widjexample.jabmod", file_13); (u "testdata/bolson-nameq/letters.nameq", file_14); (u "testdata/bolson-nameq/tennessee-example-simple.nameq", file_15); (u "testdata/questionable/empty.abif", file_16); (u "testdata/questionable/novotelines-tenn.abif", file_17); (u "testdata/questionable/leadingspace-tenn.abif", file_18); (u "testdata/commasep/tn-example-missing-scores.abif", file_19)].

(** The working directory of the tests; graphviz and texttable put down what they are given, without any layout. *)
Definition file_text (f : str) : option str := dget f repo_files.
Definition test_home : surroundings :=
  Surroundings (fun f => match file_text f with Some _ => true | None => false end) (fun f => match file_text f with Some t => Ok t | None => Err OSError end)
    (Err OSError) (fun x => x) (Oracle (fun _ => O) (fun _ l => l)).
Definition row_text (r : str * list (option Z)) : str := join (u " | ") (fst r :: map (fun x => match x with Some z => z2s z | None => [] end) (snd r)).
Definition plain_table (width : Z) (t : texttable_input) : str := join [10%N] (u "+--+" :: join (u " | ") (fst t) :: [] :: u "+--+" :: map row_text (snd t) ++ [u "+--+"]).
Definition plain_graph (fmt : str) (g : digraph) : str :=
  join [10%N] (map (fun n => fst n ++ u ": " ++ snd n) (g_nodes g) ++ map (fun e => fst (fst e) ++ u " -> " ++ snd (fst e) ++ u ": " ++ snd e) (g_edges g)).
Definition plain : rendering := Rendering plain_graph (fun s => [Text s]) soup_str plain_table (fun l => l).
Definition printed (argv : list str) : str := p_stdout (abiftool_exact test_home plain [] argv).
Definition has_line (argv : list str) (p : str) : bool := existsb (contains p) (splitlines (printed argv)).
Definition line_count (argv : list str) : nat := length (splitlines (printed argv)).

(** get_value_from_obj of abiftestfuncs.py on the printed JSON *)
Inductive step := PKey (k : str) | PIdx (i : Z).
Definition take_step (j : json) (p : step) : option json :=
  match j, p with
  | JObj d, PKey k => dget k d
  | JArr l, PIdx i => nth_error l (Z.to_nat (if i <? 0 then Z.of_nat (length l) + i else i))
  | _, _ => None
  end.
Definition at_path (j : json) (p : list step) : option json := fold_left (fun o s => match o with Some j => take_step j s | None => None end) p (Some j).
Definition json_at (argv : list str) (p : list step) : option json := match json_loads (printed argv) with Ok j => at_path j p | Err _ => None end.
Definition json_member (argv : list str) (p : list step) (s : str) : bool :=
  match json_at argv p with Some (JArr l) => existsb (fun j => match j with JStr x => str_eqb x s | _ => false end) l | _ => false end.

(** /repo/pytests/irv_test.py:21-23 *)
Example repo_test_01 : has_line [u "-t"; u "text"; u "-m"; u "IRV"; u "testdata/mock-elections/tennessee-example-scores.abif"] (u "Chat: 15") = true.
Proof. vm_compute. repeat split. Qed.
(** /repo/pytests/irv_test.py:25-27 *)
Example repo_test_02 : has_line [u "-t"; u "text"; u "-m"; u "IRV"; u "testdata/mock-elections/tennessee-example-STAR.abif"] (u "The IRV winner is Knox") = true.
Proof. vm_compute. repeat split. Qed.
(** /repo/pytests/irv_test.py:29-31 *)
Example repo_test_03 : has_line [u "-t"; u "text"; u "-m"; u "IRV"; u "testdata/mock-elections/tennessee-example-STAR-score-difference.abif"] (u "Knox: 17") = true.
Proof. vm_compute. repeat split. Qed.
(** /repo/pytests/irv_test.py:33-35 *)
Example repo_test_04 : has_line [u "-t"; u "text"; u "-m"; u "IRV"; u "testdata/commasep/tn-example-scores-and-commas.abif"] (u "Knox: 58") = true.
Proof. vm_compute. repeat split. Qed.
(** /repo/pytests/irv_test.py:37-39 *)
Example repo_test_05 : has_line [u "-t"; u "text"; u "-m"; u "IRV"; u "testdata/burl2009/burl2009.abif"] (u "The IRV winner is Kiss") = true.
Proof. vm_compute. repeat split. Qed.
(** /repo/pytests/irv_test.py:44-46, 71-73 *)
Example repo_test_06 : has_line [u "-f"; u "abif"; u "-t"; u "text"; u "-m"; u "IRV"; u "testdata/commasep/jman722-example.abif"] (u "The IRV winner is Georgie") = true /\ has_line [u "-f"; u "abif"; u "-t"; u "text"; u "-m"; u "IRV"; u "testdata/commasep/jman722-example.abif"] (u "Total starting votes: 24") = true.
Proof. vm_compute. repeat split. Qed.
(** /repo/pytests/irv_test.py:48-69 *)
Example repo_test_07 : has_line [u "-f"; u "abif"; u "-t"; u "text"; u "-m"; u "IRV"; u "testdata/mock-elections/tennessee-example-overvote-02.abif"] (u "Memph: 42") = true /\ has_line [u "-f"; u "abif"; u "-t"; u "text"; u "-m"; u "IRV"; u "testdata/mock-elections/tennessee-example-overvote-02.abif"] (u "Total starting votes: 100") = true /\ has_line [u "-f"; u "abif"; u "-t"; u "text"; u "-m"; u "IRV"; u "testdata/mock-elections/tennessee-example-overvote-02.abif"] (u "Total counted votes: 83") = true /\ has_line [u "-f"; u "abif"; u "-t"; u "text"; u "-m"; u "IRV"; u "testdata/mock-elections/tennessee-example-overvote-02.abif"] (u "Overvotes: 17") = true /\ has_line [u "-f"; u "abif"; u "-t"; u "text"; u "-m"; u "IRV"; u "testdata/mock-elections/tennessee-example-overvote-02.abif"] (u "Eliminated this round: Chat, Knox, Nash") = true.
Proof. vm_compute. repeat split. Qed.
(** /repo/pytests/irv_test.py:75-77 *)
Example repo_test_08 : has_line [u "-f"; u "abif"; u "-t"; u "text"; u "-m"; u "IRV"; u "testdata/mock-elections/tennessee-example-irv-tie.abif"] (u "The IRV winners are Knox and Memph") = true.
Proof. vm_compute. repeat split. Qed.
(** /repo/pytests/irv_test.py:79-81 *)
Example repo_test_09 : has_line [u "-f"; u "abif"; u "-t"; u "irvjson"; u "testdata/mock-elections/tennessee-example-irv-tie.abif"] (u "Knoxville, TN and Memphis, TN") = true.
Proof. vm_compute. repeat split. Qed.
(** /repo/pytests/irv_test.py:83-85 *)
Example repo_test_10 : has_line [u "-f"; u "abif"; u "-t"; u "irvjson"; u "testdata/burl2009/burl2009.abif"] (u "Bob Kiss (Progressive)") = true.
Proof. vm_compute. repeat split. Qed.
(** /repo/pytests/json_test.py:14-20 *)
Example repo_test_11 : json_at [u "-f"; u "abif"; u "-t"; u "winlosstiejson"; u "testdata/mock-elections/tennessee-example-simple.abif"] [PKey (u "Chat"); PKey (u "wins")] = Some (JInt 2).
Proof. vm_compute. repeat split. Qed.
(** /repo/pytests/json_test.py:23-29 *)
Example repo_test_12 : json_at [u "-f"; u "abif"; u "-t"; u "jabmod"; u "testdata/mock-elections/tennessee-example-simple.abif"] [PKey (u "votelines"); PIdx (0); PKey (u "qty")] = Some (JInt 42).
Proof. vm_compute. repeat split. Qed.
(** /repo/pytests/json_test.py:32-38 *)
Example repo_test_13 : json_at [u "-f"; u "jabmod"; u "-t"; u "jabmod"; u "testdata/california/simple001-example.jabmod.json"] [PKey (u "votelines"); PIdx (0); PKey (u "qty")] = Some (JInt 1).
Proof. vm_compute. repeat split. Qed.
(** /repo/pytests/json_test.py:41-47 *)
Example repo_test_14 : json_at [u "-f"; u "jabmod"; u "-t"; u "jabmod"; u "-m"; u "consolidate"; u "testdata/california/simple001-example.jabmod.json"] [PKey (u "votelines"); PIdx (0); PKey (u "qty")] = Some (JInt 5).
Proof. vm_compute. repeat split. Qed.
(** /repo/pytests/json_test.py:50-56 *)
Example repo_test_15 : json_at [u "-f"; u "abif"; u "-t"; u "irvjson"; u "testdata/california/sf2018special-results.abif"] [PKey (u "roundmeta"); PIdx (-1); PKey (u "winner")] = Some (JArr [JStr (u "LONDON_BREED")]).
Proof. vm_compute. repeat split. Qed.
(** /repo/pytests/json_test.py:59-65 *)
Example repo_test_16 : json_at [u "-f"; u "abif"; u "-t"; u "irvjson"; u "testdata/california/sf2018special-results.abif"] [PKey (u "roundmeta"); PIdx (-1); PKey (u "eliminated")] = Some (JArr [JStr (u "MARK_LENO")]).
Proof. vm_compute. repeat split. Qed.
(** /repo/pytests/json_test.py:68-74 *)
Example repo_test_17 : json_at [u "-f"; u "abif"; u "-t"; u "irvjson"; u "testdata/california/sf2018special-results.abif"] [PKey (u "roundmeta"); PIdx (-1); PKey (u "startingqty")] = Some (JInt 254016).
Proof. vm_compute. repeat split. Qed.
(** /repo/pytests/json_test.py:82-88 *)
Example repo_test_18 : json_at [u "-f"; u "abif"; u "-t"; u "irvjson"; u "testdata/california/sf2018special-results.abif"] [PKey (u "rounds"); PIdx (-1); PKey (u "LONDON_BREED")] = Some (JInt 116020).
Proof. vm_compute. repeat split. Qed.
(** /repo/pytests/json_test.py:91-97 (there: at place 3 of the list, which depends on the order of a set) *)
Example repo_test_19 : json_member [u "-f"; u "abif"; u "-t"; u "irvjson"; u "testdata/california/sf2018special-results.abif"] [PKey (u "roundmeta"); PIdx (0); PKey (u "eliminated")] (u "WRITE_IN") = true.
Proof. vm_compute. repeat split. Qed.
(** /repo/pytests/json_test.py:100-106 *)
Example repo_test_20 : json_member [u "-f"; u "abif"; u "-t"; u "irvjson"; u "testdata/mock-elections/mock-twotie.abif"] [PKey (u "roundmeta"); PIdx (13); PKey (u "all_eliminated")] (u "F") = true.
Proof. vm_compute. repeat split. Qed.
(** /repo/pytests/json_test.py:118-124 *)
Example repo_test_21 : json_at [u "-f"; u "abif"; u "-t"; u "paircountjson"; u "testdata/commasep/commasquare.abif"] [PKey (u "A,X"); PKey (u "B,Y")] = Some (JInt 12).
Proof. vm_compute. repeat split. Qed.
(** /repo/pytests/json_test.py:127-133 *)
Example repo_test_22 : json_at [u "-f"; u "abif"; u "-t"; u "jabmod"; u "testdata/commasep/commasquare.abif"] [PKey (u "votelines"); PIdx (0); PKey (u "prefs"); PKey (u "C,Z"); PKey (u "rank")] = Some (JInt 3).
Proof. vm_compute. repeat split. Qed.
(** /repo/pytests/json_test.py:137-142 *)
Example repo_test_23 : json_at [u "-f"; u "abif"; u "-t"; u "paircountjson"; u "testdata/mock-elections/tennessee-example-simple.abif"] [PKey (u "Chat"); PKey (u "Knox")] = Some (JInt 83).
Proof. vm_compute. repeat split. Qed.
(** /repo/pytests/json_test.py:145-150 *)
Example repo_test_24 : json_at [u "-f"; u "abif"; u "-t"; u "json"; u "-m"; u "pairwise"; u "testdata/mock-elections/tennessee-example-simple.abif"] [PKey (u "Chat"); PKey (u "Knox")] = Some (JInt 83).
Proof. vm_compute. repeat split. Qed.
(** /repo/pytests/json_test.py:154-159 *)
Example repo_test_25 : json_at [u "-f"; u "abif"; u "-t"; u "irvjson"; u "testdata/mock-elections/tennessee-example-simple.abif"] [PKey (u "winner"); PIdx (0)] = Some (JStr (u "Knox")).
Proof. vm_compute. repeat split. Qed.
(** /repo/pytests/json_test.py:162-167 *)
Example repo_test_26 : json_at [u "-f"; u "abif"; u "-t"; u "json"; u "-m"; u "IRV"; u "testdata/mock-elections/tennessee-example-simple.abif"] [PKey (u "winner"); PIdx (0)] = Some (JStr (u "Knox")).
Proof. vm_compute. repeat split. Qed.
(** /repo/pytests/linecount_test.py:7 *)
Example repo_test_27 : line_count [u "-t"; u "abif"; u "testdata/widjexample/widjexample.jabmod"] = Z.to_nat 22.
Proof. vm_compute. repeat split. Qed.
(** /repo/pytests/linecount_test.py:8 *)
Example repo_test_28 : line_count [u "-t"; u "jabmod"; u "testdata/burl2009/burl2009.abif"] = Z.to_nat 8650.
Proof. vm_compute. repeat split. Qed.
(** /repo/pytests/nameq_test.py:20-26 *)
Example repo_test_29 : json_at [u "-f"; u "nameq"; u "-t"; u "jabmod"; u "-m"; u "consolidate"; u "testdata/bolson-nameq/letters.nameq"] [PKey (u "votelines"); PIdx (2); PKey (u "qty")] = Some (JInt 2).
Proof. vm_compute. repeat split. Qed.
(** /repo/pytests/nameq_test.py:27-33 *)
Example repo_test_30 : json_at [u "-f"; u "nameq"; u "-t"; u "paircountjson"; u "testdata/bolson-nameq/tennessee-example-simple.nameq"] [PKey (u "Knox"); PKey (u "Chat")] = Some (JInt 17).
Proof. vm_compute. repeat split. Qed.
(** /repo/pytests/nameq_test.py:54-59 *)
Example repo_test_31 : has_line [u "-f"; u "nameq"; u "-t"; u "text"; u "-m"; u "IRV"; u "testdata/bolson-nameq/letters.nameq"] (u "Total counted votes: 10") = true /\ has_line [u "-f"; u "nameq"; u "-t"; u "text"; u "-m"; u "IRV"; u "testdata/bolson-nameq/letters.nameq"] (u "The IRV winner is AAAA AAA") = true.
Proof. vm_compute. repeat split. Qed.
(** /repo/pytests/nameq_test.py:60-65 *)
Example repo_test_32 : has_line [u "-f"; u "nameq"; u "-t"; u "text"; u "-m"; u "IRV"; u "testdata/bolson-nameq/tennessee-example-simple.nameq"] (u "The IRV winner is Knox") = true.
Proof. vm_compute. repeat split. Qed.
(** /repo/pytests/nameq_test.py:66-68 *)
Example repo_test_33 : has_line [u "-f"; u "abif"; u "-t"; u "nameq"; u "testdata/mock-elections/tennessee-example-simple.abif"] (u "Memph=1&Nash=2&Chat=3&Knox=4") = true.
Proof. vm_compute. repeat split. Qed.
(** /repo/pytests/questionable_input_test.py:9-11 *)
Example repo_test_34 : has_line [u "-t"; u "jabmod"; u "testdata/questionable/empty.abif"] (u "ERROR: Empty ABIF string") = true.
Proof. vm_compute. repeat split. Qed.
(** /repo/pytests/questionable_input_test.py:12-14 *)
Example repo_test_35 : has_line [u "-t"; u "jabmod"; u "testdata/questionable/novotelines-tenn.abif"] (u "ERROR: No votelines in ") = true.
Proof. vm_compute. repeat split. Qed.
(** /repo/pytests/questionable_input_test.py:15-17 *)
Example repo_test_36 : has_line [u "-t"; u "jabmod"; u "--cleanws"; u "testdata/questionable/leadingspace-tenn.abif"] (u "ballotcount"": 100") = true.
Proof. vm_compute. repeat split. Qed.
(** /repo/pytests/ranking_test.py:44-53 *)
Example repo_test_37 : has_line [u "-t"; u "abif"; u "testdata/mock-elections/tennessee-example-simple.abif"] (u "15:Chat>Knox>Nash>Memph") = true.
Proof. vm_compute. repeat split. Qed.
(** /repo/pytests/scorestar_test.py:13-15 *)
Example repo_test_38 : has_line [u "-t"; u "jabmod"; u "--add-scores"; u "testdata/mock-elections/tennessee-example-simple.abif"] (u "                    ""rating"": 3") = true.
Proof. vm_compute. repeat split. Qed.
(** /repo/pytests/scorestar_test.py:17-19 *)
Example repo_test_39 : has_line [u "-t"; u "jabmod"; u "testdata/mock-elections/tennessee-example-scores.abif"] (u "                    ""rating"": 133") = true.
Proof. vm_compute. repeat split. Qed.
(** /repo/pytests/scorestar_test.py:21-23 *)
Example repo_test_40 : has_line [u "-t"; u "jabmod"; u "--add-scores"; u "testdata/mock-elections/tennessee-example-scores.abif"] (u "                    ""rating"": 133") = true.
Proof. vm_compute. repeat split. Qed.
(** /repo/pytests/scorestar_test.py:25-27 *)
Example repo_test_41 : has_line [u "-t"; u "text"; u "-m"; u "score"; u "testdata/mock-elections/tennessee-example-scores.abif"] (u "19370 points (from 100 voters) -- Knoxville, TN") = true.
Proof. vm_compute. repeat split. Qed.
(** /repo/pytests/scorestar_test.py:29-39 *)
Example repo_test_42 : has_line [u "-t"; u "text"; u "-m"; u "STAR"; u "testdata/mock-elections/tennessee-example-STAR.abif"] (u "261 stars (from 100 voters) -- Nashville, TN") = true /\ has_line [u "-t"; u "text"; u "-m"; u "STAR"; u "testdata/mock-elections/tennessee-example-STAR.abif"] (u "Nashville, TN preferred by 68 of 100 voters") = true /\ has_line [u "-t"; u "text"; u "-m"; u "STAR"; u "testdata/mock-elections/tennessee-example-STAR.abif"] (u "Winner: Nashville, TN") = true.
Proof. vm_compute. repeat split. Qed.
(** /repo/pytests/scorestar_test.py:41-43 *)
Example repo_test_43 : has_line [u "-t"; u "text"; u "-m"; u "STAR"; u "testdata/mock-elections/tennessee-example-STAR-score-difference.abif"] (u "STAR Winner: Chattanooga, TN") = true.
Proof. vm_compute. repeat split. Qed.
(** /repo/pytests/scorestar_test.py:45-47 *)
Example repo_test_44 : has_line [u "-t"; u "text"; u "-m"; u "score"; u "testdata/mock-elections/tennessee-example-STAR-score-difference.abif"] (u "Score Winner: Knoxville, TN") = true.
Proof. vm_compute. repeat split. Qed.
(** /repo/pytests/scorestar_test.py:49-51 *)
Example repo_test_45 : has_line [u "-t"; u "text"; u "-m"; u "Copeland"; u "testdata/mock-elections/tennessee-example-STAR-score-difference.abif"] (u "Copeland Winner: Nashville, TN") = true.
Proof. vm_compute. repeat split. Qed.
(** /repo/pytests/scorestar_test.py:53-55 *)
Example repo_test_46 : has_line [u "-t"; u "text"; u "testdata/mock-elections/tennessee-example-STAR-score-difference.abif"] (u "Nash (3-0-0)") = true.
Proof. vm_compute. repeat split. Qed.
(** /repo/pytests/scorestar_test.py:57-59 *)
Example repo_test_47 : has_line [u "-t"; u "text"; u "-m"; u "score"; u "testdata/commasep/jman722-example.abif"] (u "88 points (from 19 voters) -- Allie") = true.
Proof. vm_compute. repeat split. Qed.
(** /repo/pytests/scorestar_test.py:61-63 *)
Example repo_test_48 : has_line [u "-t"; u "text"; u "-m"; u "score"; u "testdata/commasep/tn-example-missing-scores.abif"] (u "17480 points (from 58 voters) -- Knoxville") = true.
Proof. vm_compute. repeat split. Qed.
(** /repo/pytests/scorestar_test.py:65-67 *)
Example repo_test_49 : has_line [u "-t"; u "text"; u "-m"; u "score"; u "testdata/commasep/tn-example-scores-and-commas.abif"] (u "19370 points (from 100 voters) -- Knoxville") = true.
Proof. vm_compute. repeat split. Qed.
(** /repo/pytests/scorestar_test.py:70-74 *)
Example repo_test_50 : has_line [u "-t"; u "text"; u "-m"; u "STAR"; u "--add-scores"; u "testdata/burl2009/burl2009.abif"] (u "26167 stars (from 6706 voters) -- Andy Montroll") = true.
Proof. vm_compute. repeat split. Qed.
(** /repo/pytests/texttable_test.py:9-14, 21-26 *)
Example repo_test_51 : has_line [u "-t"; u "text"; u "testdata/burl2009/burl2009.abif"] (u "Copeland Winner: Andy Montroll") = true /\ has_line [u "-t"; u "text"; u "testdata/burl2009/burl2009.abif"] (u "Montroll (5-0-0)") = true.
Proof. vm_compute. repeat split. Qed.
(** /repo/pytests/texttable_test.py:15-20 *)
Example repo_test_52 : has_line [u "-t"; u "text"; u "-m"; u "winlosstie"; u "-m"; u "score"; u "testdata/burl2009/burl2009.abif"] (u "Montroll") = true.
Proof. vm_compute. repeat split. Qed.
(** /repo/pytests/html_test.py:15-22 *)
Example repo_test_53 : has_line [u "-f"; u "abif"; u "-t"; u "html"; u "testdata/mock-elections/tennessee-example-scores.abif"] (u "Nash: 68") = true.
Proof. vm_compute. repeat split. Qed.
(** /repo/pytests/html_test.py:23-29 *)
Example repo_test_54 : has_line [u "-t"; u "html_snippet"; u "--modifier"; u "svg"; u "testdata/mock-elections/tennessee-example-simple.abif"] ([8592%N] ++ u " Knox: 58") = true.
Proof. vm_compute. repeat split. Qed.
(** /repo/pytests/vizelect_test.py:10-15 *)
Example repo_test_55 : has_line [u "-t"; u "svg"; u "testdata/burl2009/burl2009.abif"] (u "4067") = true.
Proof. vm_compute. repeat split. Qed.
(** /repo/pytests/vizelect_test.py:16-21 *)
Example repo_test_56 : has_line [u "-t"; u "dot"; u "testdata/burl2009/burl2009.abif"] (u "(5 wins, 0 losses, 0 ties)") = true.
Proof. vm_compute. repeat split. Qed.
