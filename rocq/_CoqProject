-Q theories Verif
theories/Model/Access.v
theories/Model/Accounting.v
theories/Model/Autoconf.v
theories/Model/Brainf.v
theories/Model/Bytes.v
theories/Model/Cache.v
theories/Model/CaseNames.v
theories/Model/Checkers.v
theories/Model/Child.v
theories/Model/Clock.v
theories/Model/Commands.v
theories/Model/Communicate.v
theories/Model/Compile.v
theories/Model/Config.v
theories/Model/Confine.v
theories/Model/Connect.v
theories/Model/Console.v
theories/Model/Contrib.v
theories/Model/Editor.v
theories/Model/Executors.v
theories/Model/Feedback.v
theories/Model/FileRules.v
theories/Model/Floats.v
theories/Model/Grading.v
theories/Model/Helpers.v
theories/Model/Host.v
theories/Model/IntPatch.v
theories/Model/Interactor.v
theories/Model/Interpreters.v
theories/Model/Ipc.v
theories/Model/Json.v
theories/Model/Judge.v
theories/Model/Launch.v
theories/Model/Lifecycle.v
theories/Model/Loading.v
theories/Model/Monitor.v
theories/Model/Nodes.v
theories/Model/Packets.v
theories/Model/Paths.v
theories/Model/Policies.v
theories/Model/Problem.v
theories/Model/ReadStr.v
theories/Model/Regex.v
theories/Model/Registers.v
theories/Model/Result.v
theories/Model/Roots.v
theories/Model/Session.v
theories/Model/Shutdown.v
theories/Model/Signature.v
theories/Model/Site.v
theories/Model/Sources.v
theories/Model/Startup.v
theories/Model/SyscallTables.v
theories/Model/Testsuite.v
theories/Model/Toolchain.v
theories/Model/Tracer.v
theories/Model/UnicodeTables.v
theories/Model/Utf8.v
theories/Model/Versions.v
theories/Model/Watch.v
theories/Model/Whole.v
theories/Model/Worker.v
theories/Proofs/Access.v
theories/Proofs/Accounting.v
theories/Proofs/Autoconf.v
theories/Proofs/Brainf.v
theories/Proofs/BytesLemmas.v
theories/Proofs/Cache.v
theories/Proofs/CaseNames.v
theories/Proofs/Checkers.v
theories/Proofs/Child.v
theories/Proofs/Clock.v
theories/Proofs/Commands.v
theories/Proofs/Communicate.v
theories/Proofs/Compile.v
theories/Proofs/Config.v
theories/Proofs/Confine.v
theories/Proofs/Connect.v
theories/Proofs/Console.v
theories/Proofs/Contrib.v
theories/Proofs/Editor.v
theories/Proofs/Executors.v
theories/Proofs/Feedback.v
theories/Proofs/FileRules.v
theories/Proofs/FloatArith.v
theories/Proofs/Floats.v
theories/Proofs/Grading.v
theories/Proofs/Helpers.v
theories/Proofs/IntPatch.v
theories/Proofs/Interactor.v
theories/Proofs/Interpreters.v
theories/Proofs/Ipc.v
theories/Proofs/Json.v
theories/Proofs/Judge.v
theories/Proofs/Launch.v
theories/Proofs/Lifecycle.v
theories/Proofs/Loading.v
theories/Proofs/Monitor.v
theories/Proofs/Nodes.v
theories/Proofs/Packets.v
theories/Proofs/Paths.v
theories/Proofs/Peg.v
theories/Proofs/Policies.v
theories/Proofs/Problem.v
theories/Proofs/ReadStr.v
theories/Proofs/Regex.v
theories/Proofs/Registers.v
theories/Proofs/Roots.v
theories/Proofs/Session.v
theories/Proofs/Shutdown.v
theories/Proofs/Signature.v
theories/Proofs/Site.v
theories/Proofs/Sources.v
theories/Proofs/Standard.v
theories/Proofs/Startup.v
theories/Proofs/Testsuite.v
theories/Proofs/TextFacts.v
theories/Proofs/Toolchain.v
theories/Proofs/Tracer.v
theories/Proofs/Utf8.v
theories/Proofs/Versions.v
theories/Proofs/Watch.v
theories/Proofs/Whole.v
theories/Proofs/Worker.v
theories/Properties/Accounting.v
theories/Properties/Autoconf.v
theories/Properties/Brainf.v
theories/Properties/Cache.v
theories/Properties/CaseNames.v
theories/Properties/Checkers.v
theories/Properties/Child.v
theories/Properties/Clock.v
theories/Properties/Commands.v
theories/Properties/Communicate.v
theories/Properties/Compile.v
theories/Properties/Config.v
theories/Properties/Confine.v
theories/Properties/Connect.v
theories/Properties/Console.v
theories/Properties/Contrib.v
theories/Properties/Editor.v
theories/Properties/Executors.v
theories/Properties/Feedback.v
theories/Properties/FileRules.v
theories/Properties/Floats.v
theories/Properties/Grading.v
theories/Properties/Helpers.v
theories/Properties/Host.v
theories/Properties/IntPatch.v
theories/Properties/Interactor.v
theories/Properties/Interpreters.v
theories/Properties/Ipc.v
theories/Properties/Json.v
theories/Properties/Judge.v
theories/Properties/Launch.v
theories/Properties/Lifecycle.v
theories/Properties/Loading.v
theories/Properties/Nodes.v
theories/Properties/Packets.v
theories/Properties/Policies.v
theories/Properties/Problem.v
theories/Properties/ReadStr.v
theories/Properties/Registers.v
theories/Properties/Roots.v
theories/Properties/Sandbox.v
theories/Properties/Session.v
theories/Properties/Shutdown.v
theories/Properties/Signature.v
theories/Properties/Site.v
theories/Properties/Sources.v
theories/Properties/Startup.v
theories/Properties/Testsuite.v
theories/Properties/Toolchain.v
theories/Properties/Tracer.v
theories/Properties/Utf8.v
theories/Properties/Versions.v
theories/Properties/Watch.v
theories/Properties/Whole.v
theories/Properties/Worker.v
theories/Spec/Access.v
theories/Spec/Accounting.v
theories/Spec/Autoconf.v
theories/Spec/Brainf.v
theories/Spec/Cache.v
theories/Spec/CaseNames.v
theories/Spec/Child.v
theories/Spec/Clock.v
theories/Spec/Commands.v
theories/Spec/Communicate.v
theories/Spec/Compile.v
theories/Spec/Config.v
theories/Spec/Confine.v
theories/Spec/Connect.v
theories/Spec/Console.v
theories/Spec/Contrib.v
theories/Spec/Editor.v
theories/Spec/Executors.v
theories/Spec/Feedback.v
theories/Spec/FileRules.v
theories/Spec/Floats.v
theories/Spec/Grading.v
theories/Spec/Helpers.v
theories/Spec/Host.v
theories/Spec/IntPatch.v
theories/Spec/Interactor.v
theories/Spec/Interpreters.v
theories/Spec/Ipc.v
theories/Spec/Json.v
theories/Spec/Judge.v
theories/Spec/Launch.v
theories/Spec/Lifecycle.v
theories/Spec/Loading.v
theories/Spec/Monitor.v
theories/Spec/Nodes.v
theories/Spec/Packets.v
theories/Spec/Paths.v
theories/Spec/Peg.v
theories/Spec/Policies.v
theories/Spec/Problem.v
theories/Spec/ReadStr.v
theories/Spec/Regex.v
theories/Spec/Registers.v
theories/Spec/Roots.v
theories/Spec/Session.v
theories/Spec/Shutdown.v
theories/Spec/Signature.v
theories/Spec/Site.v
theories/Spec/Sources.v
theories/Spec/Startup.v
theories/Spec/Testsuite.v
theories/Spec/Text.v
theories/Spec/Toolchain.v
theories/Spec/Tracer.v
theories/Spec/Utf8.v
theories/Spec/Versions.v
theories/Spec/Watch.v
theories/Spec/Whole.v
theories/Spec/Worker.v
