(** * OCLint's own unit tests of the result views and of the reporters, as examples about the model

    Written by tools/conformance/core.py; do not edit. *)
From Verif Require Import Base ModelResults ModelConfig ModelFilter ModelOptions ModelMain ModelReporters ConformanceCore.
Local Open Scope Z_scope.

(** ** oclint-core/test/RawResultsTest.cpp *)

Example RawResults_EmptyResults :
  agrees RawR
    [Number QViolations 0;
     Priority 0 0;
     Priority 1 0;
     Priority 2 0;
     Priority 3 0;
     Files 0;
     FilesWith 0;
     Number QErrors 0;
     Number QWarnings 0;
     Has QErrors false;
     Has QWarnings false;
     Has QBugs false] = true.
Proof. vm_compute. reflexivity. Qed.

Example RawResults_NumberOfFiles :
  agrees RawR
    [Do (RecSet []);
     Files 1;
     Do (RecSet []);
     Files 2;
     FilesWith 0] = true.
Proof. vm_compute. reflexivity. Qed.

Example RawResults_NumberOfFilesWithViolations :
  agrees RawR
    [Do (RecSet [viol (Some 2%nat) ($"file/path/0") 1 2 3 4 []]);
     FilesWith 1;
     Do (RecSet []);
     FilesWith 1;
     Do (RecSet [viol (Some 4%nat) ($"file/path/1") 1 2 3 4 []; viol (Some 3%nat) ($"file/path/1") 1 2 3 4 []]);
     FilesWith 2;
     Do (RecSet []);
     FilesWith 2;
     Do (RecSet [viol (Some 6%nat) ($"file/path/1") 1 2 3 4 []; viol (Some 5%nat) ($"file/path/1") 1 2 3 4 []]);
     FilesWith 2] = true.
Proof. vm_compute. reflexivity. Qed.

Example RawResults_NumberOfViolations :
  agrees RawR
    [Do (RecSet [viol (Some 2%nat) ($"") 1 2 3 4 []]);
     Number QViolations 1;
     Do (RecSet []);
     Number QViolations 1;
     Do (RecSet [viol (Some 4%nat) ($"") 1 2 3 4 []; viol (Some 3%nat) ($"") 1 2 3 4 []]);
     Number QViolations 3] = true.
Proof. vm_compute. reflexivity. Qed.

Example RawResults_NumberOfViolationsWithPriority :
  agrees RawR
    [Do (RecSet [viol (Some 2%nat) ($"") 1 2 3 4 []]);
     Priority 1 1;
     Priority 2 0;
     Do (RecSet []);
     Priority 1 1;
     Priority 2 0;
     Do (RecSet [viol (Some 4%nat) ($"") 1 2 3 4 []; viol (Some 3%nat) ($"") 1 2 3 4 []]);
     Priority 1 2;
     Priority 2 1] = true.
Proof. vm_compute. reflexivity. Qed.

Example RawResults_CompilerErrors :
  agrees RawR
    [Do (RecError (viol (None) ($"test error path") 1 2 0 0 ($"test error message")));
     Do (RecError (viol (None) ($"test error path") 1 2 0 0 ($"test error message")));
     Has QErrors true;
     Number QErrors 2;
     At QErrors 0%nat (viol (None) ($"test error path") 1 2 0 0 ($"test error message"));
     At QErrors 1%nat (viol (None) ($"test error path") 1 2 0 0 ($"test error message"));
     Number QViolations 0;
     Priority 0 0;
     Priority 1 0;
     Priority 2 0;
     Priority 3 0;
     Files 0;
     FilesWith 0;
     Number QWarnings 0;
     Has QWarnings false;
     Has QBugs false] = true.
Proof. vm_compute. reflexivity. Qed.

Example RawResults_CompilerWarnings :
  agrees RawR
    [Do (RecWarning (viol (None) ($"test warning path") 1 2 0 0 ($"test warning message")));
     Do (RecWarning (viol (None) ($"test warning path") 1 2 0 0 ($"test warning message")));
     Has QWarnings true;
     Number QWarnings 2;
     At QWarnings 0%nat (viol (None) ($"test warning path") 1 2 0 0 ($"test warning message"));
     At QWarnings 1%nat (viol (None) ($"test warning path") 1 2 0 0 ($"test warning message"));
     Number QViolations 0;
     Priority 0 0;
     Priority 1 0;
     Priority 2 0;
     Priority 3 0;
     Files 0;
     FilesWith 0;
     Number QErrors 0;
     Has QErrors false;
     Has QBugs false] = true.
Proof. vm_compute. reflexivity. Qed.

Example RawResults_CheckerBugs :
  agrees RawR
    [Do (RecBug (viol (None) ($"test checker bug path") 1 2 0 0 ($"test checker bug message")));
     Do (RecBug (viol (None) ($"test checker bug path") 1 2 0 0 ($"test checker bug message")));
     Has QBugs true;
     Number QBugs 2;
     At QBugs 0%nat (viol (None) ($"test checker bug path") 1 2 0 0 ($"test checker bug message"));
     At QBugs 1%nat (viol (None) ($"test checker bug path") 1 2 0 0 ($"test checker bug message"));
     Number QViolations 0;
     Priority 0 0;
     Priority 1 0;
     Priority 2 0;
     Priority 3 0;
     Files 0;
     FilesWith 0;
     Number QErrors 0;
     Has QErrors false;
     Has QWarnings false] = true.
Proof. vm_compute. reflexivity. Qed.

(** ** oclint-core/test/UniqueResultsTest.cpp *)

Example UniqueResults_EmptyResults :
  agrees (UniqueR u_fresh)
    [Number QViolations 0;
     Priority 0 0;
     Priority 1 0;
     Priority 2 0;
     Priority 3 0;
     Files 0;
     FilesWith 0;
     Number QErrors 0;
     Number QWarnings 0;
     Has QErrors false;
     Has QWarnings false;
     Has QBugs false] = true.
Proof. vm_compute. reflexivity. Qed.

Example UniqueResults_NumberOfFiles :
  agrees (UniqueR u_fresh)
    [Do (RecSet []);
     Files 1;
     Do (RecSet []);
     Files 2;
     FilesWith 0] = true.
Proof. vm_compute. reflexivity. Qed.

Example UniqueResults_NumberOfFilesWithViolations :
  agrees (UniqueR u_fresh)
    [Do (RecSet [viol (Some 0%nat) ($"test/path/0") 1 2 3 4 []]);
     FilesWith 1;
     Do (RecSet []);
     FilesWith 1;
     Do (RecSet [viol (Some 0%nat) ($"test/path/1") 1 2 3 4 []; viol (Some 1%nat) ($"test/path/1") 1 2 3 4 []]);
     FilesWith 2] = true.
Proof. vm_compute. reflexivity. Qed.

Example UniqueResults_NumberOfViolations1 :
  agrees (UniqueR u_fresh)
    [Do (RecSet [viol (Some 0%nat) ($"") 1 2 3 4 []]);
     Number QViolations 1] = true.
Proof. vm_compute. reflexivity. Qed.

Example UniqueResults_NumberOfViolations2 :
  agrees (UniqueR u_fresh)
    [Do (RecSet [viol (Some 0%nat) ($"") 1 2 3 4 []]);
     Do (RecSet []);
     Number QViolations 1] = true.
Proof. vm_compute. reflexivity. Qed.

Example UniqueResults_NumberOfViolations3 :
  agrees (UniqueR u_fresh)
    [Do (RecSet [viol (Some 0%nat) ($"") 1 2 3 4 []]);
     Do (RecSet []);
     Do (RecSet [viol (Some 0%nat) ($"") 1 2 3 4 []; viol (Some 1%nat) ($"") 1 2 3 4 []]);
     Number QViolations 2] = true.
Proof. vm_compute. reflexivity. Qed.

Example UniqueResults_NumberOfViolationsWithPriority1 :
  agrees (UniqueR u_fresh)
    [Do (RecSet [viol (Some 0%nat) ($"") 1 2 3 4 []]);
     Priority 1 1;
     Priority 2 0] = true.
Proof. vm_compute. reflexivity. Qed.

Example UniqueResults_NumberOfViolationsWithPriority2 :
  agrees (UniqueR u_fresh)
    [Do (RecSet [viol (Some 0%nat) ($"") 1 2 3 4 []]);
     Do (RecSet []);
     Priority 1 1;
     Priority 2 0] = true.
Proof. vm_compute. reflexivity. Qed.

Example UniqueResults_NumberOfViolationsWithPriority3 :
  agrees (UniqueR u_fresh)
    [Do (RecSet [viol (Some 0%nat) ($"") 1 2 3 4 []]);
     Do (RecSet []);
     Do (RecSet [viol (Some 0%nat) ($"") 1 2 3 4 []; viol (Some 1%nat) ($"") 1 2 3 4 []]);
     Priority 1 1;
     Priority 2 1] = true.
Proof. vm_compute. reflexivity. Qed.

Example UniqueResults_CompilerErrors :
  agrees (UniqueR u_fresh)
    [Do (RecError (viol (None) ($"test error path") 1 2 0 0 ($"test error message")));
     Do (RecError (viol (None) ($"test error path") 1 2 0 0 ($"test error message")));
     Has QErrors true;
     Number QErrors 1;
     At QErrors 0%nat (viol (None) ($"test error path") 1 2 0 0 ($"test error message"));
     Number QViolations 0;
     Priority 0 0;
     Priority 1 0;
     Priority 2 0;
     Priority 3 0;
     Files 0;
     FilesWith 0;
     Number QWarnings 0;
     Has QWarnings false;
     Has QBugs false] = true.
Proof. vm_compute. reflexivity. Qed.

Example UniqueResults_CompilerWarnings :
  agrees (UniqueR u_fresh)
    [Do (RecWarning (viol (None) ($"test warning path") 1 2 0 0 ($"test warning message")));
     Do (RecWarning (viol (None) ($"test warning path") 1 2 0 0 ($"test warning message")));
     Has QWarnings true;
     Number QWarnings 1;
     At QWarnings 0%nat (viol (None) ($"test warning path") 1 2 0 0 ($"test warning message"));
     Number QViolations 0;
     Priority 0 0;
     Priority 1 0;
     Priority 2 0;
     Priority 3 0;
     Files 0;
     FilesWith 0;
     Number QErrors 0;
     Has QErrors false;
     Has QBugs false] = true.
Proof. vm_compute. reflexivity. Qed.

Example UniqueResults_CheckerBugs :
  agrees (UniqueR u_fresh)
    [Do (RecBug (viol (None) ($"test checker bug path") 1 2 0 0 ($"test checker bug message")));
     Do (RecBug (viol (None) ($"test checker bug path") 1 2 0 0 ($"test checker bug message")));
     Has QBugs true;
     Number QBugs 1;
     At QBugs 0%nat (viol (None) ($"test checker bug path") 1 2 0 0 ($"test checker bug message"));
     Number QViolations 0;
     Priority 0 0;
     Priority 1 0;
     Priority 2 0;
     Priority 3 0;
     Files 0;
     FilesWith 0;
     Number QErrors 0;
     Has QErrors false;
     Has QWarnings false] = true.
Proof. vm_compute. reflexivity. Qed.

(** ** oclint-reporters/test/HTMLReporterTest.cpp *)

Example HTMLReporter_PropertyTest : rp_name (HTMLReporter [] [] mock) = ($"html").
Proof. reflexivity. Qed.

Example HTMLReporter_WriteSummaryTable :
  writes (c_empty) (writeSummaryTable mock c_empty)
    [HasSubstr ($"<th>Total Files</th><th>Files with Violations</th><th>Priority 1</th><th>Priority 2</th><th>Priority 3</th><th>Compiler Errors</th><th>Compiler Warnings</th><th>Clang Static Analyzer</th>");
     HasSubstr ($"<td>0</td><td>0</td><td class='priority1'>0</td><td class='priority2'>0</td><td class='priority3'>0</td><td class='cmplr-error'>0</td><td class='cmplr-warning'>0</td><td class='checker-bug'>0</td>")] = true.
Proof. vm_compute. reflexivity. Qed.

Example HTMLReporter_WriteViolation :
  writes (c_empty) (html_writeViolation mock (viol (Some 100%nat) ($"test path") 1 2 3 4 ($"test message")))
    [HasSubstr ($"<td>test path</td>");
     HasSubstr ($"<td>1:2</td>");
     HasSubstr ($"<td>test message</td>")] = true.
Proof. vm_compute. reflexivity. Qed.

Example HTMLReporter_WriteCompilerErrorOrWarning :
  writes (c_empty) (html_diagnostic ($"testlevel") (viol (None) ($"test path") 1 2 3 4 ($"test message")))
    [HasSubstr ($"<td>test path</td>");
     HasSubstr ($"<td>1:2</td>");
     HasSubstr ($"<td>compiler testlevel</td>");
     HasSubstr ($"<td class='cmplr-testlevel'>testlevel</td>");
     HasSubstr ($"<td>test message</td>")] = true.
Proof. vm_compute. reflexivity. Qed.

Example HTMLReporter_WriteCompilerDiagnostics :
  writes (c_empty) (forEach (html_diagnostic ($"testlevel")) [viol (None) ($"test1 path") 1 2 3 4 ($"test1 message"); viol (None) ($"test2 path") 5 6 7 8 ($"test2 message")])
    [HasSubstr ($"<td>test1 path</td><td>1:2</td><td>compiler testlevel</td><td></td><td class='cmplr-testlevel'>testlevel</td><td>test1 message</td>");
     HasSubstr ($"<td>test2 path</td><td>5:6</td><td>compiler testlevel</td><td></td><td class='cmplr-testlevel'>testlevel</td><td>test2 message</td>")] = true.
Proof. vm_compute. reflexivity. Qed.

Example HTMLReporter_WriteCheckerBugs :
  writes (c_empty) (forEach html_checkerBug [viol (None) ($"test1 path") 1 2 3 4 ($"test1 message"); viol (None) ($"test2 path") 5 6 7 8 ($"test2 message")])
    [HasSubstr ($"<td>test1 path</td><td>1:2</td><td>clang static analyzer</td><td></td><td class='checker-bug'>checker bug</td><td>test1 message</td>");
     HasSubstr ($"<td>test2 path</td><td>5:6</td><td>clang static analyzer</td><td></td><td class='checker-bug'>checker bug</td><td>test2 message</td>")] = true.
Proof. vm_compute. reflexivity. Qed.

(** ** oclint-reporters/test/JSONReporterTest.cpp *)

Example JSONReporter_PropertyTest : rp_name (JSONReporter mock 0) = ($"json").
Proof. reflexivity. Qed.

Example JSONReporter_WriteKey :
  writes (c_empty) (writeKey ($"key"))
    [StrEq ($"""key"":")] = true.
Proof. vm_compute. reflexivity. Qed.

Example JSONReporter_WriteComma :
  writes (c_empty) (writeComma false)
    [StrEq ($",")] = true.
Proof. vm_compute. reflexivity. Qed.

Example JSONReporter_WriteCommaFalse :
  writes (c_empty) (writeComma true)
    [StrEq ($"")] = true.
Proof. vm_compute. reflexivity. Qed.

Example JSONReporter_writeKeyIntValue :
  writes (c_empty) (writeKeyInt ($"key") 1 false)
    [StrEq ($"""key"":1,")] = true.
Proof. vm_compute. reflexivity. Qed.

Example JSONReporter_writeTailKeyIntValue :
  writes (c_empty) (writeKeyInt ($"key") 1 true)
    [StrEq ($"""key"":1")] = true.
Proof. vm_compute. reflexivity. Qed.

Example JSONReporter_writeKeyStringValue :
  writes (c_empty) (writeKeyString ($"key") ($"value") false)
    [StrEq ($"""key"":""value"",")] = true.
Proof. vm_compute. reflexivity. Qed.

Example JSONReporter_writeTailKeyStringValue :
  writes (c_empty) (writeKeyString ($"key") ($"value") true)
    [StrEq ($"""key"":""value""")] = true.
Proof. vm_compute. reflexivity. Qed.

Example JSONReporter_WriteSummary :
  writes (c_empty) (json_writeSummary mock c_empty)
    [StartsWith ($"""summary"":");
     HasSubstr ($"""numberOfFiles"":0");
     HasSubstr ($"""numberOfFilesWithViolations"":0");
     HasSubstr ($"""numberOfViolationsWithPriority"":[");
     HasSubstr ($"{""priority"":1,""number"":0}");
     HasSubstr ($"{""priority"":2,""number"":0}");
     HasSubstr ($"{""priority"":3,""number"":0}")] = true.
Proof. vm_compute. reflexivity. Qed.

Example JSONReporter_WriteViolation :
  writes (c_empty) (json_writeViolation mock (viol (Some 100%nat) ($"test path") 1 2 3 4 ($"test message")))
    [HasSubstr ($"""path"":""test path""");
     HasSubstr ($"""startLine"":1");
     HasSubstr ($"""startColumn"":2");
     HasSubstr ($"""endLine"":3");
     HasSubstr ($"""endColumn"":4");
     HasSubstr ($"""message"":""test message""")] = true.
Proof. vm_compute. reflexivity. Qed.

(** ** oclint-reporters/test/PMDReporterTest.cpp *)

Example PMDReporter_PropertyTest : rp_name (PMDReporter mock) = ($"pmd").
Proof. reflexivity. Qed.

Example PMDReporter_WriteHeader :
  writes (c_empty) (rp_report (PMDReporter mock) (c_empty))
    [StartsWith ($"<?xml version=""1.0"" encoding=""UTF-8""?>");
     HasSubstr (($"<pmd version=""oclint-") ++ version ++ ($""">"))] = true.
Proof. vm_compute. reflexivity. Qed.

Example PMDReporter_WriteFooter :
  writes (c_empty) (rp_report (PMDReporter mock) (c_empty))
    [EndsWith ($"</pmd>")] = true.
Proof. vm_compute. reflexivity. Qed.

Example PMDReporter_WriteCompilerError :
  writes (c_addError (c_empty) (viol (None) ($"error path") 1 2 3 4 ($"error <message> ""message2"" && 'message3'"))) (rp_report (PMDReporter mock) (c_addError (c_empty) (viol (None) ($"error path") 1 2 3 4 ($"error <message> ""message2"" && 'message3'"))))
    [HasSubstr ($"<file name=""error path"">");
     HasSubstr ($"<violation");
     HasSubstr ($"begincolumn=""2""");
     HasSubstr ($"endcolumn=""4""");
     HasSubstr ($"beginline=""1""");
     HasSubstr ($"endline=""3""");
     HasSubstr ($"priority=""1""");
     HasSubstr ($"rule=""compiler error""");
     HasSubstr ($"ruleset=""clang""");
     HasSubstr ($"error &lt;message&gt; &quot;message2&quot; &amp;&amp; &apos;message3&apos;")] = true.
Proof. vm_compute. reflexivity. Qed.

Example PMDReporter_WriteCompilerWarning :
  writes (c_addWarning (c_empty) (viol (None) ($"warning path") 1 2 3 4 ($"warning <message> ""message2"" && 'message3'"))) (rp_report (PMDReporter mock) (c_addWarning (c_empty) (viol (None) ($"warning path") 1 2 3 4 ($"warning <message> ""message2"" && 'message3'"))))
    [HasSubstr ($"<file name=""warning path"">");
     HasSubstr ($"<violation");
     HasSubstr ($"begincolumn=""2""");
     HasSubstr ($"endcolumn=""4""");
     HasSubstr ($"beginline=""1""");
     HasSubstr ($"endline=""3""");
     HasSubstr ($"priority=""2""");
     HasSubstr ($"rule=""compiler warning""");
     HasSubstr ($"ruleset=""clang""");
     HasSubstr ($"warning &lt;message&gt; &quot;message2&quot; &amp;&amp; &apos;message3&apos;")] = true.
Proof. vm_compute. reflexivity. Qed.

Example PMDReporter_WriteViolation :
  writes (c_add (c_empty) [viol (Some 201%nat) ($"violation path") 1 2 3 4 ($"violation <message> ""message2"" && 'message3'")]) (rp_report (PMDReporter mock) (c_add (c_empty) [viol (Some 201%nat) ($"violation path") 1 2 3 4 ($"violation <message> ""message2"" && 'message3'")]))
    [HasSubstr ($"<file name=""violation path"">");
     HasSubstr ($"<violation");
     HasSubstr ($"begincolumn=""2""");
     HasSubstr ($"endcolumn=""4""");
     HasSubstr ($"beginline=""1""");
     HasSubstr ($"endline=""3""");
     HasSubstr ($"priority=""5""");
     HasSubstr ($"rule=""rule name""");
     HasSubstr ($"ruleset=""rule category""");
     HasSubstr ($"violation &lt;message&gt; &quot;message2&quot; &amp;&amp; &apos;message3&apos;")] = true.
Proof. vm_compute. reflexivity. Qed.

Example PMDReporter_WriteViolationWithoutRule :
  writes (c_add (c_empty) [viol (None) ($"violation path") 1 2 3 4 ($"violation <message> ""message2"" && 'message3'")]) (rp_report (PMDReporter mock) (c_add (c_empty) [viol (None) ($"violation path") 1 2 3 4 ($"violation <message> ""message2"" && 'message3'")]))
    [HasSubstr ($"<file name=""violation path"">");
     HasSubstr ($"<violation");
     HasSubstr ($"begincolumn=""2""");
     HasSubstr ($"endcolumn=""4""");
     HasSubstr ($"beginline=""1""");
     HasSubstr ($"endline=""3""");
     Lacks ($"priority");
     Lacks ($"rule");
     Lacks ($"ruleset");
     HasSubstr ($"violation &lt;message&gt; &quot;message2&quot; &amp;&amp; &apos;message3&apos;")] = true.
Proof. vm_compute. reflexivity. Qed.

Example PMDReporter_WriteCheckerBug :
  writes (c_addCheckerBug (c_empty) (viol (None) ($"checker bug path") 1 2 3 4 ($"checker bug <message> ""message2"" && 'message3'"))) (rp_report (PMDReporter mock) (c_addCheckerBug (c_empty) (viol (None) ($"checker bug path") 1 2 3 4 ($"checker bug <message> ""message2"" && 'message3'"))))
    [HasSubstr ($"<file name=""checker bug path"">");
     HasSubstr ($"<violation");
     HasSubstr ($"begincolumn=""2""");
     HasSubstr ($"endcolumn=""4""");
     HasSubstr ($"beginline=""1""");
     HasSubstr ($"endline=""3""");
     HasSubstr ($"priority=""2""");
     HasSubstr ($"rule=""clang static analyzer""");
     HasSubstr ($"ruleset=""clang""");
     HasSubstr ($"checker bug &lt;message&gt; &quot;message2&quot; &amp;&amp; &apos;message3&apos;")] = true.
Proof. vm_compute. reflexivity. Qed.

(** ** oclint-reporters/test/TextReporterTest.cpp *)

Example TextReporter_PropertyTest : rp_name (TextReporter mock) = ($"text").
Proof. reflexivity. Qed.

Example TextReporter_WriteSummary :
  writes (c_empty) (text_writeSummary mock c_empty)
    [StartsWith ($"Summary:");
     HasSubstr ($"TotalFiles=0");
     HasSubstr ($"FilesWithViolations=0");
     HasSubstr ($"P1=0");
     HasSubstr ($"P2=0");
     HasSubstr ($"P3=0")] = true.
Proof. vm_compute. reflexivity. Qed.

Example TextReporter_WriteViolations :
  writes (c_empty) (forEach (fun v => text_writeViolation mock v >>> endl) [viol (Some 100%nat) ($"test1 path") 1 2 3 4 ($"test1 message"); viol (Some 100%nat) ($"test2 path") 5 6 7 8 ($"test2 message")])
    [HasSubstr ($"test1 path");
     HasSubstr ($"1:2");
     HasSubstr ($"test1 message");
     HasSubstr ($"test2 path");
     HasSubstr ($"5:6");
     HasSubstr ($"test2 message")] = true.
Proof. vm_compute. reflexivity. Qed.

Example TextReporter_WriteViolation :
  writes (c_empty) (text_writeViolation mock (viol (Some 100%nat) ($"test path") 1 2 3 4 ($"test message")))
    [HasSubstr ($"test path");
     HasSubstr ($"1:2");
     HasSubstr ($"test message")] = true.
Proof. vm_compute. reflexivity. Qed.

Example TextReporter_WriteCompilerErrorOrWarning :
  writes (c_empty) (writeCompilerErrorOrWarning (viol (None) ($"test path") 1 2 3 4 ($"test message")))
    [HasSubstr ($"test path");
     HasSubstr ($"1:2");
     HasSubstr ($"test message")] = true.
Proof. vm_compute. reflexivity. Qed.

Example TextReporter_WriteCompilerDiagnostics :
  writes (fold_left c_addError [viol (None) ($"test1 path") 1 2 3 4 ($"test1 message"); viol (None) ($"test2 path") 5 6 7 8 ($"test2 message")] c_empty) (writeCompilerDiagnostics QErrors ($"test header text"))
    [HasSubstr ($"test header text");
     HasSubstr ($"test1 path");
     HasSubstr ($"1:2");
     HasSubstr ($"test1 message");
     HasSubstr ($"test2 path");
     HasSubstr ($"5:6");
     HasSubstr ($"test2 message")] = true.
Proof. vm_compute. reflexivity. Qed.

(** ** oclint-reporters/test/XMLReporterTest.cpp *)

Example XMLReporter_PropertyTest : rp_name (XMLReporter mock None) = ($"xml").
Proof. reflexivity. Qed.

Example XMLReporter_WriteViolation :
  writes (c_empty) (xml_writeViolation mock (viol (Some 100%nat) ($"test path") 1 2 3 4 ($"test message")))
    [HasSubstr ($"path=""test path""");
     HasSubstr ($"startline=""1""");
     HasSubstr ($"startcolumn=""2""");
     HasSubstr ($"endline=""3""");
     HasSubstr ($"endcolumn=""4""");
     HasSubstr ($"message=""test message""")] = true.
Proof. vm_compute. reflexivity. Qed.

Example XMLReporter_WriteViolationIntAttribute :
  writes (c_empty) (writeViolationAttribute ($"key") (show_Z 1))
    [StrEq ($" key=""1""")] = true.
Proof. vm_compute. reflexivity. Qed.

Example XMLReporter_WriteViolationStringAttribute :
  writes (c_empty) (writeViolationAttribute ($"key") ($"value"))
    [StrEq ($" key=""value""")] = true.
Proof. vm_compute. reflexivity. Qed.

Example XMLReporter_WriteSummary :
  writes (c_empty) (xml_writeSummary mock c_empty)
    [StartsWith ($"<summary>");
     HasSubstr ($"<property name=""number of files"">0</property>");
     HasSubstr ($"<property name=""files with violations"">0</property>");
     HasSubstr ($"<property name=""number of priority 1 violations"">0</property>");
     HasSubstr ($"<property name=""number of priority 2 violations"">0</property>");
     HasSubstr ($"<property name=""number of priority 3 violations"">0</property>")] = true.
Proof. vm_compute. reflexivity. Qed.

Example XMLReporter_WriteSummaryIntProperty :
  writes (c_empty) (writeSummaryProperty ($"key") (out (show_Z 1)))
    [StrEq ($"<property name=""key"">1</property>")] = true.
Proof. vm_compute. reflexivity. Qed.

Example XMLReporter_WriteSummaryStringProperty :
  writes (c_empty) (writeSummaryProperty ($"key") (out ($"value")))
    [StrEq ($"<property name=""key"">value</property>")] = true.
Proof. vm_compute. reflexivity. Qed.

(** ** oclint-reporters/test/XcodeReporterTest.cpp *)

Example XcodeReporter_PropertyTest : rp_name (XcodeReporter mock) = ($"xcode").
Proof. reflexivity. Qed.

Example XcodeReporter_WriteViolation :
  writes (c_empty) (xcode_writeViolation mock (viol (Some 100%nat) ($"test path") 1 2 3 4 ($"test message")))
    [HasSubstr ($": warning: ");
     HasSubstr ($"test path");
     HasSubstr ($"1:2");
     HasSubstr ($"test message")] = true.
Proof. vm_compute. reflexivity. Qed.

