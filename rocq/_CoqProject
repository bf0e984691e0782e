-Q theories Verif
theories/Base.v
theories/PathFacts.v
theories/FS.v
theories/FSFacts.v
theories/SysFacts.v
theories/Base32.v
theories/Utf8.v
theories/FileDetails.v
theories/Ignore.v
theories/Changes.v
theories/ChangeEntries.v
theories/Accept.v
theories/Reject.v
theories/Status.v
theories/DiffText.v
theories/RmdirFacts.v
theories/AcceptFacts.v
theories/AcceptMain.v
theories/OverlaySpec.v
theories/OverlayOk.v
theories/ChangesFacts.v
theories/ChangesSpec.v
theories/Plan.v
theories/Order.v
theories/Unique.v
theories/MergedView.v
theories/Success.v
theories/AcceptAll.v
theories/Refuse.v
theories/Checkers.v
theories/AcceptRun.v
theories/Props_Accept.v
theories/Props_Attrs.v
theories/Props_View.v
theories/Props_Listing.v
theories/Props_General.v
theories/Props_Doable.v
theories/Props_Resume.v
theories/Props_Fresh.v
theories/Props_Confined.v
theories/Net.v
theories/Props_Net.v
theories/Props_ConfigKeys.v
theories/Props_Atomic.v
theories/Props_Frame.v
theories/IgnoreFacts.v
theories/Props_Ignore.v
theories/Props_IgnoreText.v
theories/Props_Reject.v
theories/RedirectSpec.v
theories/RenamedOk.v
theories/Props_Redirect.v
theories/Rename.v
theories/Props_Rename.v
theories/SetOk.v
theories/RenamePlan.v
theories/Props_RenameSets.v
theories/RenamedView.v
theories/RenamedLost.v
theories/RenamedList.v
theories/RenamedAll.v
theories/RenamedFound.v
theories/RenamedDoable.v
theories/RenamedCheck.v
theories/Props_RenameView.v
theories/Props_Loss.v
theories/Props_RenamedCrash.v
theories/Props_RenamedFrame.v
theories/Props_Concurrent.v
theories/Props_Ignored.v
theories/Props_RenamedList.v
theories/Logger.v
theories/Props_Logger.v
theories/Creds.v
theories/Props_Creds.v
theories/Config.v
theories/Props_Config.v
theories/Mounts.v
theories/Props_Mounts.v
theories/Isolation.v
theories/Props_Isolation.v
theories/Masking.v
theories/Props_Masked.v
theories/ConfigFiles.v
theories/Props_ConfigFiles.v
theories/Props_Rights.v
theories/Props_Diff.v
theories/Setup.v
theories/Props_Setup.v
theories/Lifecycle.v
theories/Props_Names.v
theories/Props_Lifecycle.v
theories/Props_List.v
theories/Props_Stop.v
theories/Props_Start.v
theories/Inherit.v
theories/Props_Inherit.v
theories/Storage.v
theories/Props_Storage.v
theories/Start.v
theories/Exec.v
theories/Props_Exec.v
theories/Output.v
theories/Props_Delete.v
theories/Props_Counts.v
theories/Props_Status.v
theories/Props_ConfigCmd.v
theories/Props_Host.v
theories/Lock.v
theories/Props_Lock.v
